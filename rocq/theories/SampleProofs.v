(** Proofs for C98. *)
From Coq Require Import Permutation.
From Verif Require Import Shapes ShapeProofs Base Geo Graph Cell Loaders AddLoader VecLoader Builder Env Spec MeshSpec EnvSpec DataSpec QLib AggProofs Construct ConstructSpec XrProofs Names PyStr Dates DateSpec Config ConfigSpec Params ParamSpec ParamProofs
  Files FilesSpec FilesProofs PropsFiles Import ImportSpec PropsImport Downsample DownSpec DownProofs PropsDown Forecast ForecastSpec
  Reproject ReprojectSpec Pipeline PipeSpec ConfigProofs PipeProofs Sources SourcesSpec SourcesProofs PropsSources MixSpec MixProofs PropsMix VecSources VecSourcesSpec VecSourcesProofs PropsVecSources
  Lut LutSpec LutFiles LutFilesSpec LutFilesProofs LutSources TableSpec TableProofs TableFiles PropsLut PropsLutFiles PropsTable ShapeSources ShapeSourcesSpec ShapeSourcesProofs AllSources WholeSpec WholeProofs
  Grf GrfSpec GrfProofs PropsGrf GrfSources GrfSourcesSpec GrfSourcesProofs PropsGrfSources IceSources IceSourcesSpec IceSourcesProofs WindSources WindSourcesSpec WindSourcesProofs SampleSpec.
Open Scope string_scope.
Open Scope Z_scope.

(** ** Blocks *)
Lemma block_in {A} n I (l b : list A) x : is_block n I l b -> In x b -> exists r, (r < n)%nat /\ nth_error l (I * n + r) = Some x.
Proof.
  intros H Ix. apply In_nth_error in Ix as (r & E). rewrite H in E. destruct (Nat.ltb_spec r n); [|discriminate]. eauto.
Qed.
Lemma blocked_entry n axis axis' I c : blocked n axis axis' -> nth_error axis' I = Some c -> exists b, is_block n I axis b /\ b <> [] /\ (fst c == qmean (map fst b))%Q.
Proof. intros H E. specialize (H I). rewrite E in H. destruct c as [c k]. exact H. Qed.
Lemma map_nonempty {A B} (f : A -> B) l : l <> [] -> map f l <> [].
Proof. destruct l; [contradiction|discriminate]. Qed.
Lemma blocked_increasing n axis axis' : (0 < n)%nat -> increasing axis -> blocked n axis axis' -> increasing axis'.
Proof.
  intros N Inc B i j x y L X Y.
  destruct (blocked_entry _ _ _ _ _ B X) as (bx & Bx & Nx & Ex). destruct (blocked_entry _ _ _ _ _ B Y) as (by' & By & Ny & Ey).
  rewrite Ex, Ey.
  assert (H : forall u v, In u bx -> In v by' -> (fst u <= fst v)%Q).
  { intros u v Iu Iv. destruct (block_in _ _ _ _ _ Bx Iu) as (r & Hr & Hu). destruct (block_in _ _ _ _ _ By Iv) as (s & Hs & Hv).
    refine (Inc _ _ u v _ Hu Hv). assert (i * n + n <= j * n)%nat by nia. lia. }
  destruct by' as [|v0 by0]; [contradiction|].
  assert (Up : forall v, In v (v0 :: by0) -> (qmean (map fst bx) <= fst v)%Q).
  { intros v Iv. destruct bx as [|u0 bx0]; [contradiction|]. 
    assert (Lo : exists lo, forall q, In q (map fst (u0 :: bx0)) -> (lo <= q)%Q).
    { clear. induction (map fst (u0 :: bx0)) as [|a l (lo & IH)]; [exists 0%Q; intros q []|]. exists (if qleb lo a then lo else a). intros q [<-|Iq]; destruct (qleb_spec lo a); try lra; specialize (IH q Iq); lra. }
    destruct Lo as (lo & Lo). apply (qmean_bounds (map fst (u0 :: bx0)) lo (fst v)); [discriminate|]. intros q Iq. split; [apply Lo, Iq|].
    apply in_map_iff in Iq as (u & <- & Iu). apply H; assumption. }
  assert (Hi : exists hi, forall q, In q (map fst (v0 :: by0)) -> (q <= hi)%Q).
  { clear. induction (map fst (v0 :: by0)) as [|a l (hi & IH)]; [exists 0%Q; intros q []|]. exists (if qleb hi a then a else hi). intros q [<-|Iq]; destruct (qleb_spec hi a); try lra; specialize (IH q Iq); lra. }
  destruct Hi as (hi & Hi). apply (qmean_bounds (map fst (v0 :: by0)) (qmean (map fst bx)) hi); [discriminate|]. intros q Iq. split; [|apply Hi, Iq].
  apply in_map_iff in Iq as (v & <- & Iv). apply Up, Iv.
Qed.
(** Means of half-open intervals stay in them. *)
Lemma qsum_strict l lo : l <> [] -> (forall x, In x l -> lo < x)%Q -> (lo < qmean l)%Q.
Proof.
  intros N H. assert (M : exists lo', (lo < lo')%Q /\ forall x, In x l -> (lo' <= x)%Q).
  { clear N. induction l as [|a l IH]; [exists (lo + 1)%Q; split; [lra|intros x []]|]. destruct IH as (lo' & L & K); [intros x I; apply H; right; exact I|]. specialize (H a (or_introl eq_refl)).
    exists (if qleb lo' a then lo' else a). destruct (qleb_spec lo' a); (split; [lra|]); intros x [<-|I]; try lra; specialize (K x I); lra. }
  destruct M as (lo' & L & K). assert (Hi : exists hi, forall q, In q l -> (q <= hi)%Q).
  { clear. induction l as [|a l (hi & IH)]; [exists 0%Q; intros q []|]. exists (if qleb hi a then a else hi). intros q [<-|Iq]; destruct (qleb_spec hi a); try lra; specialize (IH q Iq); lra. }
  destruct Hi as (hi & Hi). destruct (qmean_bounds l lo' hi N) as [A _]; [intros x I; split; auto|]. lra.
Qed.
Lemma mean_between l lo hi : l <> [] -> (forall x, In x l -> lo < x <= hi)%Q -> (lo < qmean l <= hi)%Q.
Proof.
  intros N H. split; [apply qsum_strict; [exact N|intros x I; apply H, I]|].
  apply (qmean_bounds l lo hi N). intros x I. specialize (H x I). lra.
Qed.

(** The points of a Dataset *)
Lemma xr_point_in ds p : In p (xr_points ds) <-> exists la lo, In la (x_lat ds) /\ In lo (x_long ds) /\
  match x_time ds with None => p = mkP (fst la) (fst lo) None (x_val ds (snd la) (snd lo) 0%nat)
  | Some ts => exists t, In t ts /\ p = mkP (fst la) (fst lo) (Some (fst t)) (x_val ds (snd la) (snd lo) (snd t)) end.
Proof.
  unfold xr_points. rewrite in_flat_map. split.
  - intros (la & Ia & I). apply in_flat_map in I as (lo & Io & I). exists la, lo. split; [exact Ia|]. split; [exact Io|].
    destruct (x_time ds); [apply in_map_iff in I as (t & <- & It); eauto|destruct I as [<-|[]]; reflexivity].
  - intros (la & lo & Ia & Io & H). exists la. split; [exact Ia|]. apply in_flat_map. exists lo. split; [exact Io|].
    destruct (x_time ds); [destruct H as (t & It & ->); apply in_map_iff; eauto|left; symmetry; exact H].
Qed.
Lemma sampled_belongs agg m n b ds ds' : 0 < m -> 0 < n -> downsampled agg m n ds ds' -> (forall p, In p (xr_points ds) -> belongs b p) -> forall p, In p (xr_points ds') -> belongs b p.
Proof.
  intros M N (Ba & Bo & T & _) H p I. apply xr_point_in in I as (la & lo & Ia & Io & E). rewrite T in E.
  apply In_nth_error in Ia as (i & Ia). apply In_nth_error in Io as (j & Io).
  destruct (blocked_entry _ _ _ _ _ Ba Ia) as (bl & Bl & Nl & El). destruct (blocked_entry _ _ _ _ _ Bo Io) as (bo & Bo' & No & Eo).
  assert (In_l : forall x, In x bl -> In x (x_lat ds)) by (intros x Ix; destruct (block_in _ _ _ _ _ Bl Ix) as (r & _ & K); eapply nth_error_In, K).
  assert (In_o : forall x, In x bo -> In x (x_long ds)) by (intros x Ix; destruct (block_in _ _ _ _ _ Bo' Ix) as (r & _ & K); eapply nth_error_In, K).
  assert (K : forall u v, In u bl -> In v bo -> exists q, In q (xr_points ds) /\ p_lat q = fst u /\ p_long q = fst v /\ p_time q = p_time p).
  { intros u v Iu Iv. destruct (x_time ds) as [ts|] eqn:Et.
    - destruct E as (t & It & ->). eexists. split; [apply xr_point_in; exists u, v; split; [apply In_l, Iu|]; split; [apply In_o, Iv|]; rewrite Et; exists t; split; [exact It|reflexivity]|]. cbn. auto.
    - subst p. eexists. split; [apply xr_point_in; exists u, v; split; [apply In_l, Iu|]; split; [apply In_o, Iv|]; rewrite Et; reflexivity|]. cbn. auto. }
  assert (Pl : p_lat p = fst la /\ p_long p = fst lo) by (destruct (x_time ds); [destruct E as (t & _ & ->)|subst p]; cbn; auto). destruct Pl as (Pa & Po).
  destruct bl as [|u0 bl0]; [contradiction|]. destruct bo as [|v0 bo0]; [contradiction|].
  assert (La : forall q, In q (map fst (u0 :: bl0)) -> (y0 (region b) < q <= y1 (region b))%Q).
  { intros q Iq. apply in_map_iff in Iq as (u & <- & Iu). destruct (K u v0 Iu (or_introl eq_refl)) as (r & Ir & E1 & E2 & E3). destruct (H r Ir) as [Mm _]. unfold mem in Mm. rewrite E1 in Mm. tauto. }
  assert (Lo : forall q, In q (map fst (v0 :: bo0)) -> (x0 (region b) < q <= x1 (region b))%Q).
  { intros q Iq. apply in_map_iff in Iq as (v & <- & Iv). destruct (K u0 v (or_introl eq_refl) Iv) as (r & Ir & E1 & E2 & E3). destruct (H r Ir) as [Mm _]. unfold mem in Mm. rewrite E2 in Mm. tauto. }
  apply (mean_between _ _ _ (map_nonempty _ _ Nl)) in La. apply (mean_between _ _ _ (map_nonempty _ _ No)) in Lo.
  destruct (K u0 v0 (or_introl eq_refl) (or_introl eq_refl)) as (r & Ir & _ & _ & E3). destruct (H r Ir) as [_ D].
  split; [|unfold on_date in *; rewrite <- E3; exact D]. unfold mem. rewrite Pa, Po, El, Eo. tauto.
Qed.
Lemma sampled_ordered agg m n ds ds' : 0 < m -> 0 < n -> ordered ds -> downsampled agg m n ds ds' -> ordered ds'.
Proof.
  intros M N (A & B & C) (Ba & Bo & T & _). split; [apply (blocked_increasing (Z.to_nat n) (x_lat ds)); [lia|exact A|exact Ba]|].
  split; [apply (blocked_increasing (Z.to_nat m) (x_long ds)); [lia|exact B|exact Bo]|]. rewrite T. exact C.
Qed.
Lemma downsampled_weaker (A B : list (option Q) -> option Q -> Prop) m n ds ds' : (forall l v, A l v -> B l v) -> downsampled A m n ds ds' -> downsampled B m n ds ds'.
Proof. intros W (H1 & H2 & H3 & H4). repeat (split; [assumption|]). intros. apply W. eapply H4; eassumption. Qed.
Lemma downsample_made sq agg m n ds : 0 < m -> 0 < n -> (m, n) <> (1, 1) -> In agg ["MIN"; "MAX"; "MEAN"; "MEDIAN"] ->
  exists ds', downsample sq agg (m, n) ds = Ok ds' /\ downsampled (block_aggregate agg) m n ds ds'.
Proof.
  intros M N D I. destruct I as [<-|[<-|[<-|[<-|[]]]]].
  - destruct (C61_extremes sq m n ds M N D) as ((ds' & E & H) & _). exists ds'. split; [exact E|]. eapply downsampled_weaker; [|exact H]. intros l v K. left. auto.
  - destruct (C61_extremes sq m n ds M N D) as (_ & (ds' & E & H)). exists ds'. split; [exact E|]. eapply downsampled_weaker; [|exact H]. intros l v K. right. left. auto.
  - destruct (C61_mean_partial sq m n ds M N D) as (ds' & E & (H1 & H2 & H3 & H4) & (_ & _ & _ & H5)). exists ds'. split; [exact E|]. repeat (split; [assumption|]).
    intros. right. right. left. split; [reflexivity|]. split; [eapply H4; eassumption|eapply H5; eassumption].
  - destruct (C61_median_partial sq m n ds M N D) as (ds' & E & H). exists ds'. split; [exact E|]. eapply downsampled_weaker; [|exact H]. intros l v K. right. right. right. auto.
Qed.

(** ** The first of each block *)
Lemma every_in {A} n (l l' : list A) x : every n l l' -> In x l' -> In x l.
Proof. intros H I. apply In_nth_error in I as (i & E). rewrite H in E. eapply nth_error_In, E. Qed.
Lemma every_increasing n (axis axis' : list (Q * nat)) : (0 < n)%nat -> increasing axis -> every n axis axis' -> increasing axis'.
Proof. intros N Inc E i j x y L X Y. rewrite E in X, Y. refine (Inc _ _ x y _ X Y). nia. Qed.
Lemma thinned_every {A} n (l : list A) : (0 < n)%nat -> every n l (thinned n l).
Proof.
  intros N i. unfold thinned, chunks.
  assert (K : forall c s, (forall k, (k < c)%nat -> ((s + k) * n < List.length l)%nat) -> (List.length l <= (s + c) * n)%nat ->
    nth_error (flat_map (firstn 1) (map (fun i => firstn n (skipn (i * n) l)) (seq s c))) i = nth_error l ((s + i) * n)).
  { intros c. revert i. induction c as [|c IH]; intros i s H1 H2; cbn [seq map flat_map].
    - symmetry. rewrite (proj2 (nth_error_None l _)) by nia. destruct i; reflexivity.
    - specialize (H1 0%nat) as H0. assert (L : (s * n < List.length l)%nat) by (rewrite Nat.add_0_r in H0; apply H0; lia).
      destruct (firstn n (skipn (s * n) l)) as [|x r] eqn:E; [destruct (block_nonempty n s l N L E)|].
      assert (X : nth_error l (s * n) = Some x).
      { assert (K := firstn_nth (skipn (s * n) l) n 0). rewrite E, skipn_nth, Nat.add_0_r in K. destruct (Nat.ltb_spec 0 n); [|lia]. symmetry. exact K. }
      destruct i as [|i]; [rewrite Nat.add_0_r, X; reflexivity|]. change (nth_error (flat_map (firstn 1) (map (fun i => firstn n (skipn (i * n) l)) (seq (S s) c))) i = nth_error l ((s + S i) * n)).
      rewrite IH; [f_equal; lia| |]. { intros k Hk. specialize (H1 (S k)). replace (S s + k)%nat with (s + S k)%nat by lia. apply H1. lia. } replace (S s + c)%nat with (s + S c)%nat by lia. exact H2. }
  rewrite (K _ 0%nat); [reflexivity| |].
  - intros k Hk. apply chunk_count in Hk; [exact Hk|exact N].
  - destruct (Nat.le_gt_cases (List.length l) ((0 + Nat.div (List.length l + n - 1) n) * n)); [assumption|]. apply chunk_count in H; [cbn in H; lia|exact N].
Qed.
Lemma counted sq m n ds : 0 < m -> 0 < n -> (m, n) <> (1, 1) -> exists ds', downsample sq "COUNT" (m, n) ds = Ok ds' /\ first_of_blocks m n ds ds'.
Proof.
  intros M N D. unfold downsample. cbn [fst snd]. rewrite not_unit by exact D. cbn [downsample_xr String.eqb Ascii.eqb Bool.eqb fst snd]. unfold downsample_xr. cbn [String.eqb Ascii.eqb Bool.eqb fst snd].
  unfold thin_lat, thin_long. destruct (Z.leb_spec n 0); [lia|]. destruct (Z.leb_spec m 0); [lia|]. eexists. split; [reflexivity|].
  split; [apply thinned_every; lia|]. split; [apply thinned_every; lia|]. split; reflexivity.
Qed.
Lemma counted_in m n ds ds' p : first_of_blocks m n ds ds' -> In p (xr_points ds') -> In p (xr_points ds).
Proof.
  intros (A & B & T & V) I. apply xr_point_in in I as (la & lo & Ia & Io & E). apply xr_point_in. exists la, lo. split; [eapply every_in; eassumption|]. split; [eapply every_in; eassumption|].
  rewrite T in E. destruct (x_time ds); [destruct E as (t & It & ->); exists t|subst p]; rewrite V; auto.
Qed.
Lemma downsample_blocks sq agg m n ds : 0 < m -> 0 < n -> (m, n) <> (1, 1) -> In agg ["MIN"; "MAX"; "MEAN"; "MEDIAN"; "COUNT"] ->
  exists ds', downsample sq agg (m, n) ds = Ok ds' /\ in_blocks agg m n ds ds'.
Proof.
  intros M N D I. unfold in_blocks. destruct (String.eqb_spec agg "COUNT") as [->|Nc]; [apply counted; assumption|].
  apply downsample_made; try assumption. cbn in I |- *. intuition congruence.
Qed.
Lemma blocks_belong agg m n b ds ds' : 0 < m -> 0 < n -> in_blocks agg m n ds ds' -> (forall p, In p (xr_points ds) -> belongs b p) -> forall p, In p (xr_points ds') -> belongs b p.
Proof.
  intros M N. unfold in_blocks. destruct (String.eqb agg "COUNT"); [|apply sampled_belongs; assumption]. intros F H p I. apply H. eapply counted_in; eassumption.
Qed.
Lemma blocks_ordered agg m n ds ds' : 0 < m -> 0 < n -> ordered ds -> in_blocks agg m n ds ds' -> ordered ds'.
Proof.
  intros M N. unfold in_blocks. destruct (String.eqb agg "COUNT"); [|apply sampled_ordered; assumption]. intros (A & B & C) (Ba & Bo & T & _).
  split; [apply (every_increasing (Z.to_nat n) (x_lat ds)); [lia|exact A|exact Ba]|]. split; [apply (every_increasing (Z.to_nat m) (x_long ds)); [lia|exact B|exact Bo]|]. rewrite T. exact C.
Qed.
Lemma blocks_time agg m n ds ds' : in_blocks agg m n ds ds' -> x_time ds' = x_time ds.
Proof. unfold in_blocks. destruct (String.eqb agg "COUNT"); intros (_ & _ & T & _); exact T. Qed.

(** ** Sources *)
Lemma sampled_supplied glob sq proj open_nc construct b min_dp k src f : plain_region b ->
  (forall p files name cls kept ds d, grid_loader sq b (snd src) files name cls kept ds d -> construct k cls p b = construct_grid sq proj open_nc k cls p b) ->
  sampled_feed glob open_nc sq b min_dp src f ->
  exists g, supplies glob construct sq b min_dp k src g /\ sampled_feed glob open_nc sq b min_dp src g /\ f_name g = f_name f.
Proof.
  intros R Hc (name & cls & col & vars & files & kept & ds & m & n & d0 & inner0 & ds0 & Sn & St & Lf & Op & Va & Nc & Da & Gl & _ & _ & _ & _ & X).
  destruct (loader_known _ _ _ _ _ _ _ _ _ Gl) as (Ln & Rq & Pc & Ncsv).
  destruct (filed_source glob src min_dp name cls ["files"] files Sn Ln Rq (ss_dict _ _ _ _ _ _ St) Lf) as (p1 & E1 & Ef & Em & G). { intros r [<-|[]]; left; reflexivity. }
  set (p' := base_defaults cls p1).
  assert (B : forall k, ~ In k filed -> sget p' k = match sget (snd src) k with Some v => Some v | None => sget (base_list cls) k end) by (intros c Kc; unfold p'; rewrite sget_base, (G c Kc); reflexivity).
  assert (TX : forall k d t, ~ In k filed -> text_or (snd src) k d t -> sget (base_list cls) k = Some (JStr d) -> sget p' k = Some (JStr t)).
  { intros c d t K1 Xx Y. rewrite (B c K1). unfold text_or in Xx. destruct (sget (snd src) c); [subst; reflexivity|]. rewrite Y, Xx. reflexivity. }
  assert (Stt := St). destruct St as [D Na Ag Kn Mi (s & P1 & P2) Fa (Pm & Pn) Mo Co Fi].
  assert (Ra : sget p' "aggregate_type" = Some (JStr (f_agg f))) by (eapply TX; [|exact Ag|reflexivity]; cbn; intuition discriminate).
  assert (Ri : attr_text p' "in_proj" = Ok s) by (apply text_read; eapply TX; [|exact P1|reflexivity]; cbn; intuition discriminate).
  assert (Ro : attr_text p' "out_proj" = Ok s) by (apply text_read; eapply TX; [|exact P2|reflexivity]; cbn; intuition discriminate).
  assert (Rn : exists o, attr_name p' = Ok o /\ match o with None => f_name f = col | Some n => n = f_name f /\ ~ In n ["lat"; "long"; "time"] end).
  { unfold attr_name, attr. rewrite B by (cbn; intuition discriminate). unfold names in Na. destruct (sget (snd src) "data_name") as [[]|]; cbn [sget String.eqb Ascii.eqb Bool.eqb bind base_list];
      try (destruct Na as [Na _]; discriminate); eexists; (split; [reflexivity|]); cbn beta iota; try assumption.
    destruct Na as [[= ->] Xx]. split; [reflexivity|exact Xx]. }
  destruct Rn as (o & Rn & Rn').
  assert (Ru : sget p' "units" = sget (snd src) "units") by (rewrite B by (cbn; intuition discriminate); destruct (sget (snd src) "units"); reflexivity).
  destruct (import_got sq open_nc b src files p' name cls kept ds d0 col vars R Da Ru Gl Op Va) as (inner & Ei & (Or & Pe & Be & d & Gd & Sd)).
  destruct (downsample_blocks sq (f_agg f) m n inner Pm Pn Mo Kn) as (ds' & Ed & Hd).
  destruct (construct_xr_same b ds' R) as (ds'' & Ec & Pp).
  { eapply blocks_ordered; [exact Pm|exact Pn|exact Or|exact Hd]. }
  { unfold period_given in *. rewrite (blocks_time _ _ _ _ _ Hd). exact Pe. }
  { eapply blocks_belong; [exact Pm|exact Pn|exact Hd|exact Be]. }
  exists (mkFeed (f_name f) (f_xr f) (f_agg f) (f_min f) (f_conds f) (f_fill f) (xr_points ds')). split; [|split; [|reflexivity]].
  - cbn [f_name f_xr f_agg f_min f_conds f_fill f_data].
    split; [|split; [cbn in Kn |- *; tauto|split; [exact Mi|split; [exact Co|exact Fi]]]].
    exists cls, p1, p'. split; [exact E1|]. split; [apply Pc|]. split; [|split; [exact Ra|exact (plain_no_table _ Pc)]].
    rewrite (Hc _ _ _ _ _ _ _ Gl). unfold construct_grid, construct_dataset.
    assert (Rf : attr_files p' = Ok files) by (unfold attr_files, attr, p'; rewrite sget_base, Ef; cbn [bind]; apply mapM_strings).
    rewrite Rf. cbn [bind]. rewrite Ei. cbn [bind snd fst].
    assert (Rfa : attr_factors p' = Ok (m, n)) by (unfold attr_factors, attr; rewrite B by (cbn; intuition discriminate); rewrite Fa; reflexivity).
    assert (Rm : attr_int p' "min_dp" = Ok (f_min f)) by (unfold attr_int, attr, p'; rewrite sget_base, Em, Mi; reflexivity).
    rewrite Rfa. cbn [bind]. rewrite (text_read _ _ _ Ra). cbn [bind]. rewrite Rm. cbn [bind]. rewrite Ed. cbn [bind]. rewrite Ri. cbn [bind]. rewrite Ro. cbn [bind]. rewrite Rn. cbn [bind]. rewrite String.eqb_refl.
    rewrite (named_scalar o col (f_name f) ds' Nc Rn'). cbn [bind]. rewrite Ec. cbn [bind]. rewrite Pp. unfold feed_loader. cbn [f_xr f_name f_agg f_min]. rewrite X. reflexivity.
  - exists name, cls, col, vars, files, kept, ds, m, n, d, inner, ds'. split; [exact Sn|]. split; [constructor; try assumption; [exists s; auto|auto]|]. repeat (split; [assumption|]). split; [reflexivity|exact X].
Qed.
Lemma agree_refl b f : agree b f f.
Proof. repeat split; auto. Qed.

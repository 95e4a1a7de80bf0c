(** Merging several meshes: at every point the last mesh wins. *)
From Coq Require Import Permutation.
From Verif Require Import Base Geo Graph Cell Builder Env MergeDir Spec MeshSpec EnvSpec MergeDirSpec QLib CaseProofs SplitGeo Dict Rep SplitCore Stage BuilderSplit Invariant Consequences EnvSplit EnvInv EnvMerge EnvJson EnvLink EnvQuery EnvHistory.
Open Scope Z_scope.

Lemma sight_refl c : same_sight c c.
Proof. split; auto. Qed.
Lemma sight_trans a b c : same_sight a b -> same_sight b c -> same_sight a c.
Proof. intros (A1 & A2) (B1 & B2). split; [congruence|]. intros n Hn. rewrite B2, A2; auto. Qed.
Lemma sight_sym a b : same_sight a b -> same_sight b a.
Proof. intros (A1 & A2). split; [congruence|]. intros n Hn. symmetry; auto. Qed.

Lemma mem_dec b x y : mem b x y \/ ~ mem b x y.
Proof.
  unfold mem. destruct (Qlt_le_dec (x0 b) x), (Qlt_le_dec (x1 b) x), (Qlt_le_dec (y0 b) y), (Qlt_le_dec (y1 b) y);
  solve [left; lra | right; lra].
Qed.

(** One merge. *)
Lemma merge_step m o : well_kept m -> fits m o -> aligned_with m o ->
  exists m' o', merge_mesh m o = Ok (m', o') /\ well_kept m' /\ em_bounds m' = em_bounds m /\
    em_config m' = append_config (em_config m) (em_config o) /\
    em_cells m' = kept m o ++ moved m o.
Proof.
  intros W F Al. pose proof (fits_mergeable _ _ W F) as Mg. pose proof Mg as (_ & _ & _ & P2 & _ & (Hw & Hh) & _).
  pose proof (proj2 (proj1 (validate_merge_spec m o Hw Hh P2)) Al) as V.
  destruct (mergeable_ok m o Mg V) as (m' & o' & E & _ & C & B & Cf & _). exists m', o'. split; auto.
  assert (H : env_history m m') by (econstructor; [constructor|exact F|exact E]).
  destruct (history_ok m m' W H) as (W' & _). auto.
Qed.
Lemma merge_seen m o m' x y : well_kept m -> fits m o -> em_cells m' = kept m o ++ moved m o ->
  covers m x y ->
  (covers o x y -> exists c c', seen o x y c /\ seen m' x y c' /\ same_sight c c') /\
  (~ covers o x y -> exists c, seen m x y c /\ seen m' x y c).
Proof.
  intros (Sm & P & T & _) (So & _ & P2 & _ & T2 & _) C Cv. split.
  - intros Co. destruct T2 as (U1 & _). destruct (U1 x y Co) as (c & Hc & Mc).
    exists c, (increment_cell (get_max_cellbox_id (kept m o) + 1) c). split; [split; auto|]. split; [split; auto|].
    + rewrite C. apply in_or_app; right. apply in_map; auto.
    + split; [reflexivity|]. intros n Hn. cbn [increment_cell e_data]. rewrite EnvInv.sget_sset.
      destruct (String.eqb_spec n "id"); congruence.
  - intros Co. destruct T as (T1 & _). destruct (T1 x y Cv) as (c & Hc & Mc). exists c. split; [split; auto|].
    split; auto. rewrite C. apply in_or_app; left. apply kept_in. split; auto.
    destruct (within_bounds (em_bounds o) c) eqn:W; auto. exfalso. apply Co.
    apply (within_box o) in W; auto; [|apply Sm; auto]. unfold covers, mem, box_in in *. lra.
Qed.

Lemma seen_unique m x y c c' : sound_mesh m -> env_tiles (region (em_bounds m)) (em_cells m) ->
  seen m x y c -> seen m x y c' -> c = c'.
Proof.
  intros (N & _) (_ & _ & T) (H & M) (H' & M'). pose proof (T c c' x y H H' M M') as E.
  revert N H H' E. clear. induction (em_cells m) as [|a l IH]; cbn [map In]; [tauto|].
  intros N. inversion_clear N as [|? ? N1 N2]. intros [->|H] [->|H'] E; auto.
  - exfalso. apply N1. rewrite E. apply in_map; auto.
  - exfalso. apply N1. rewrite <- E. apply in_map; auto.
Qed.

(** Whether a mesh fits depends on bounds and grid only. *)
Definition same_frame (m m' : emesh) : Prop :=
  em_bounds m' = em_bounds m /\ c_width (em_config m') = c_width (em_config m) /\ c_height (em_config m') = c_height (em_config m).
Lemma frame_fits m m' o : same_frame m m' -> fits m o -> fits m' o.
Proof. intros (B & Cw & Ch). unfold fits. rewrite B, Cw, Ch. auto. Qed.
Lemma frame_aligned m m' o : same_frame m m' -> aligned_with m o -> aligned_with m' o.
Proof. intros (B & Cw & Ch). unfold aligned_with. rewrite B, Cw, Ch. auto. Qed.
Lemma frame_append m m' c : em_bounds m' = em_bounds m -> em_config m' = append_config (em_config m) c -> same_frame m m'.
Proof. intros B E. destruct (append_config_size (em_config m) c) as (A1 & A2 & _). split; auto. rewrite E. auto. Qed.

(** All merges, of loaded meshes. *)
Definition merge_all (m : emesh) (ms : list emesh) : res emesh :=
  foldM (fun m o => r <- merge_mesh m o ;; Ok (fst r)) m ms.
Lemma merge_files_all fs ms : Forall2 (fun f m => load_from_json f = Ok m) fs ms -> forall m, merge_files m fs = merge_all m ms.
Proof.
  unfold merge_files, merge_all. induction 1 as [|f o fs ms L F IH]; intros m; cbn [foldM]; auto.
  unfold merge_file at 1. rewrite L. cbn [bind]. destruct (merge_mesh m o) as [(m', o')|]; cbn [bind fst]; auto.
Qed.

Lemma on_top_cons base base' o ms x y t : on_top base (o :: ms) x y t ->
  (covers o x y /\ t = o /\ on_top base' ms x y base') \/ (~ covers o x y /\ t = base /\ on_top base' ms x y base') \/
  (on_top base' ms x y t /\ covers t x y /\ exists l1 l2, ms = l1 ++ t :: l2).
Proof.
  intros [(-> & H)|(l1 & l2 & E & Ct & H)].
  - right; left. split; [apply H; left; auto|]. split; auto. left. split; auto. intros m Hm. apply H. right; auto.
  - destruct l1 as [|a l1]; cbn in E; injection E as -> ->.
    + left. split; auto. split; auto. left. split; auto.
    + right; right. split; [right; eauto 6|]. split; eauto.
Qed.

Theorem merge_all_ok ms : forall base, well_kept base -> Forall (fits base) ms -> Forall (aligned_with base) ms ->
  exists m, merge_all base ms = Ok m /\ well_kept m /\ em_bounds m = em_bounds base /\
    same_frame base m /\ c_region (em_config m) = c_region (em_config base) /\
    c_merged (em_config m) = c_merged (em_config base) ++ map em_config ms /\ stacked base ms m.
Proof.
  induction ms as [|o ms IH]; intros base W F A; unfold merge_all; cbn [foldM].
  - exists base. split; auto. split; auto. split; auto. split; [split; auto|]. split; auto. split; [rewrite app_nil_r; auto|].
    intros x y Cv t [(-> & _)|(l1 & l2 & E & _)]; [|destruct l1; discriminate].
    destruct W as (_ & _ & (T1 & _) & _). destruct (T1 x y Cv) as (c & Hc & Mc). exists c, c.
    split; [split; auto|]. split; [split; auto|apply sight_refl].
  - inversion_clear F as [|? ? F1 F2]. inversion_clear A as [|? ? A1 A2].
    destruct (merge_step base o W F1 A1) as (m1 & o' & E & W1 & B1 & C1 & L1). rewrite E. cbn [bind fst].
    pose proof (frame_append _ _ _ B1 C1) as Fr.
    destruct (IH m1 W1) as (m & Em & Wm & Bm & Frm & Rm & Mm & St).
    { rewrite Forall_forall in *. intros q Hq. eapply frame_fits; eauto. }
    { rewrite Forall_forall in *. intros q Hq. eapply frame_aligned; eauto. }
    destruct (append_config_size (em_config base) (em_config o)) as (_ & _ & _ & Ar & Am).
    exists m. split; [exact Em|]. split; auto. split; [congruence|].
    split; [destruct Fr as (? & ? & ?), Frm as (? & ? & ?); split; [|split]; congruence|].
    split; [rewrite Rm, C1; auto|]. split; [rewrite Mm, C1, Am, <- app_assoc; reflexivity|].
    intros x y Cv t Tp. destruct (merge_seen base o m1 x y W F1 L1 Cv) as (S1 & S2).
    assert (Cv1 : covers m1 x y) by (unfold covers in *; rewrite B1; auto).
    assert (U : forall c, seen m1 x y c -> on_top m1 ms x y m1 -> exists c', seen m x y c' /\ same_sight c c').
    { intros c Hc Tq. destruct (St x y Cv1 m1 Tq) as (c1 & c' & H1 & H2 & H3).
      destruct W1 as (Sd & _ & T & _). rewrite (seen_unique m1 x y c c1 Sd T Hc H1). eauto. }
    destruct (on_top_cons base m1 o ms x y t Tp) as [(Co & -> & Tq)|[(Co & -> & Tq)|(Tq & _)]].
    + destruct (S1 Co) as (c & c1 & Hc & Hc1 & E1). destruct (U c1 Hc1 Tq) as (c' & Hc' & E').
      exists c, c'. split; auto. split; auto. eapply sight_trans; eauto.
    + destruct (S2 Co) as (c & Hc & Hc1). destruct (U c Hc1 Tq) as (c' & Hc' & E'). exists c, c'. auto.
    + exact (St x y Cv1 t Tq).
Qed.

Theorem merge_all_refuses ms : forall base, well_kept base -> Forall (fits base) ms ->
  Exists (fun o => ~ aligned_with base o) ms -> merge_all base ms = Err AssertionError.
Proof.
  induction ms as [|o ms IH]; intros base W F X; [inversion X|]. unfold merge_all; cbn [foldM].
  inversion_clear F as [|? ? F1 F2]. pose proof (fits_mergeable _ _ W F1) as Mg.
  pose proof Mg as (_ & _ & _ & P2 & _ & (Hw & Hh) & _).
  destruct (validate_merge_spec base o Hw Hh P2) as (V & r & Er).
  destruct r.
  - apply V in Er. destruct (merge_step base o W F1 Er) as (m1 & o' & E & W1 & B1 & C1 & L1). rewrite E. cbn [bind fst].
    pose proof (frame_append _ _ _ B1 C1) as Fr. apply IH; auto.
    + rewrite Forall_forall in *. intros q Hq. eapply frame_fits; eauto.
    + inversion_clear X as [? ? X1|? ? X1]; [contradiction|]. apply Exists_exists in X1 as (q & Hq & N).
      apply Exists_exists. exists q. split; auto. intros Al. apply N. revert Al. apply frame_aligned.
      destruct Fr as (? & ? & ?); split; [|split]; congruence.
  - unfold merge_mesh. rewrite Er. reflexivity.
Qed.

(** ** Which mesh is on top *)
Lemma on_top_total base ms x y : exists t, on_top base ms x y t.
Proof.
  induction ms as [|o ms (t & IH)].
  - exists base. left. split; auto.
  - destruct IH as [(-> & H)|(l1 & l2 & -> & C & H)].
    + destruct (mem_dec (region (em_bounds o)) x y) as [M|M].
      * exists o. right. exists [], ms. auto.
      * exists base. left. split; auto. intros m [<-|Hm]; auto.
    + exists t. right. exists (o :: l1), l2. auto.
Qed.

Lemma disjoint_pairs ms l1 l2 a b x y : ForallOrdPairs disjoint ms -> ms = l1 ++ a :: l2 -> In b (l1 ++ l2) ->
  covers a x y -> ~ covers b x y.
Proof.
  intros F -> Hb Ca Cb. induction l1 as [|c l1 IH]; cbn [app] in *.
  - inversion_clear F as [|? ? F1 _]. rewrite Forall_forall in F1. apply (F1 b Hb x y); auto.
  - inversion_clear F as [|? ? F1 F2]. destruct Hb as [<-|Hb]; auto.
    rewrite Forall_forall in F1. apply (F1 a) with x y; auto. apply in_or_app; right; left; auto.
Qed.
Lemma disjoint_perm ms ms' : Permutation ms ms' -> ForallOrdPairs disjoint ms -> ForallOrdPairs disjoint ms'.
Proof.
  induction 1 as [|a l l' P IH|a b l|l l' l'' P IH P' IH']; intros F; auto.
  - inversion_clear F as [|? ? F1 F2]. constructor; auto. rewrite Forall_forall in *. intros q Hq.
    apply F1. eapply Permutation_in; [symmetry; exact P|auto].
  - inversion_clear F as [|? ? F1 F2]. inversion_clear F2 as [|? ? F3 F4]. inversion_clear F1 as [|? ? F5 F6].
    constructor; [constructor; auto|constructor; auto]. intros x y (C1 & C2). apply (F5 x y); auto.
Qed.
Lemma on_top_perm base ms ms' x y t : ForallOrdPairs disjoint ms -> Permutation ms ms' ->
  on_top base ms x y t -> on_top base ms' x y t.
Proof.
  intros F P [(-> & H)|(l1 & l2 & E & C & H)].
  - left. split; auto. intros m Hm. apply H. eapply Permutation_in; [symmetry; exact P|auto].
  - assert (Hin : In t ms') by (eapply Permutation_in; [exact P|]; rewrite E; apply in_or_app; right; left; auto).
    apply in_split in Hin as (k1 & k2 & E'). right. exists k1, k2. split; auto. split; auto. intros m Hm.
    apply (disjoint_pairs ms' k1 k2 t m x y); auto; [eapply disjoint_perm; eauto|apply in_or_app; auto].
Qed.

Theorem merge_all_order base ms ms' m m' : well_kept base -> Forall (fits base) ms -> Forall (aligned_with base) ms ->
  ForallOrdPairs disjoint ms -> Permutation ms ms' ->
  merge_all base ms = Ok m -> merge_all base ms' = Ok m' ->
  forall x y c c', seen m x y c -> seen m' x y c' -> same_sight c c'.
Proof.
  intros W F A D P E E' x y c c' Sc Sc'.
  assert (F' : Forall (fits base) ms') by (rewrite Forall_forall in *; intros q Hq; apply F; eapply Permutation_in; [symmetry; exact P|auto]).
  assert (A' : Forall (aligned_with base) ms') by (rewrite Forall_forall in *; intros q Hq; apply A; eapply Permutation_in; [symmetry; exact P|auto]).
  destruct (merge_all_ok ms base W F A) as (q & Eq & Wm & Bm & _ & _ & _ & St). rewrite E in Eq. injection Eq as <-.
  destruct (merge_all_ok ms' base W F' A') as (q & Eq & Wm' & Bm' & _ & _ & _ & St'). rewrite E' in Eq. injection Eq as <-.
  destruct Wm as (S1 & _ & T1 & _). destruct Wm' as (S2 & _ & T2 & _).
  assert (Cv : covers base x y). { unfold covers. rewrite <- Bm. destruct Sc as (H & M). exact (proj1 (proj2 T1) c x y H M). }
  destruct (on_top_total base ms x y) as (t & Tp).
  destruct (St x y Cv t Tp) as (a & b & Ha & Hb & Hab).
  destruct (St' x y Cv t (on_top_perm _ _ _ _ _ _ D P Tp)) as (a' & b' & Ha' & Hb' & Hab').
  rewrite (seen_unique m x y c b S1 T1 Sc Hb), (seen_unique m' x y c' b' S2 T2 Sc' Hb').
  assert (Ea : a = a').
  { destruct Tp as [(-> & _)|(l1 & l2 & Em & _)].
    - destruct W as (S0 & _ & T0 & _). exact (seen_unique base x y a a' S0 T0 Ha Ha').
    - assert (Ft : fits base t) by (rewrite Forall_forall in F; apply F; rewrite Em; apply in_or_app; right; left; auto).
      destruct Ft as (S0 & _ & _ & _ & T0 & _). exact (seen_unique t x y a a' S0 T0 Ha Ha'). }
  subst a'. eapply sight_trans; [apply sight_sym; exact Hab|exact Hab'].
Qed.

(** ** Writing the merged mesh *)
Definition unreserved (kv : string * jval) : bool := negb (reserved (fst kv)).
(** Names once each, and no name of the geometry. *)
Definition near_plain (d : sdict jval) : Prop :=
  NoDup (map fst d) /\ forall n, In n (map fst d) -> ~ In n ["geometry"; "cx"; "cy"; "dcx"; "dcy"]%string.
Lemma filter_sset (d : sdict jval) k v : reserved k = true -> filter unreserved (sset d k v) = filter unreserved d.
Proof.
  intros R. assert (F : forall w, unreserved (k, w) = false) by (intros w; unfold unreserved; cbn [fst]; rewrite R; auto).
  induction d as [|(k0, v0) d IH]; cbn [sset filter].
  - rewrite F. auto.
  - destruct (String.eqb_spec k k0) as [<-|Ne]; cbn [filter].
    + rewrite !F. auto.
    + rewrite IH. auto.
Qed.
Lemma cell_again c : drawable (e_bounds c) -> near_plain (e_data c) ->
  cell_from_json (cell_to_json c) = Ok (mkE (without_times (e_bounds c)) (filter unreserved (e_data c)) (e_id c)).
Proof.
  intros D (N & P). unfold cell_from_json, cell_to_json. cbv zeta. rewrite EnvInv.sget_sset. rewrite String.eqb_refl.
  rewrite supdate_new by auto.
  rewrite EnvInv.sget_sset. change (String.eqb "geometry" "id") with false. cbn iota. rewrite sget_app.
  change (sget [("geometry"%string, JGeom (to_polygon (e_bounds c))); ("cx"%string, JNum (Some (getcx (e_bounds c))));
    ("cy"%string, JNum (Some (getcy (e_bounds c)))); ("dcx"%string, JNum (Some (getdcx (e_bounds c))));
    ("dcy"%string, JNum (Some (getdcy (e_bounds c))))] "geometry") with (Some (JGeom (to_polygon (e_bounds c)))). cbn iota.
  rewrite load_bounds_ok by auto. cbn [bind]. do 2 f_equal. fold unreserved.
  change (filter unreserved (sset ([("geometry"%string, JGeom (to_polygon (e_bounds c))); ("cx"%string, JNum (Some (getcx (e_bounds c))));
    ("cy"%string, JNum (Some (getcy (e_bounds c)))); ("dcx"%string, JNum (Some (getdcx (e_bounds c))));
    ("dcy"%string, JNum (Some (getdcy (e_bounds c))))] ++ e_data c) "id" (JId (e_id c))) = filter unreserved (e_data c)).
  rewrite filter_sset by reflexivity. rewrite filter_app. reflexivity.
Qed.

Lemma dget_of_in {V} (g : dict V) k v : NoDup (dkeys g) -> In (k, v) g -> dget_opt g k = Some v.
Proof.
  induction g as [|(k0, v0) g IH]; cbn [dkeys map fst]; [intros _ []|]. intros N. inversion_clear N as [|? ? N1 N2].
  intros [E|H]; cbn [dget_opt].
  - injection E as -> ->. destruct (key_eqb_spec k k); congruence.
  - destruct (key_eqb_spec k k0) as [->|]; auto. exfalso. apply N1. change k0 with (fst (k0, v)). apply in_map; auto.
Qed.
Lemma contacts_written R cs g : lists_contacts R cs g -> graph_to_json g = g.
Proof.
  intros (N & K & _ & M). unfold graph_to_json.
  assert (E : map (fun kv : pykey * nmap => (fst kv, string_keys (snd kv))) g = g).
  { rewrite <- map_id. apply map_ext_in. intros (k, mp) H. cbn [fst snd]. f_equal.
    assert (Hk : In k (dkeys g)) by (change k with (fst (k, mp)); apply in_map; auto).
    apply K in Hk as (c & -> & Hc). destruct (M c mp Hc (dget_of_in g _ _ N H)) as (N' & K').
    apply string_keys_id; auto. intros k' Hk'. apply K' in Hk' as (d & ->). eauto. }
  etransitivity; [apply (f_equal string_keys E)|]. apply string_keys_id; auto. intros k Hk. apply K in Hk as (c & -> & _). eauto.
Qed.

(** Cells as they are after loading and merging. *)
Definition tidy (c : ecell) : Prop := near_plain (e_data c) /\ time_range (e_bounds c) = [].
Lemma sset_names {V} (d : sdict V) k v : map fst (sset d k v) = map fst d \/ (~ In k (map fst d) /\ map fst (sset d k v) = map fst d ++ [k]).
Proof.
  induction d as [|(k0, v0) d IH]; cbn [sset map fst app In]; [right; auto|].
  destruct (String.eqb_spec k k0) as [<-|Ne]; cbn [map fst]; auto.
  destruct IH as [->|(N & ->)]; auto. right. split; auto. intros [X|X]; auto.
Qed.
Lemma tidy_moved inc c : tidy c -> tidy (increment_cell inc c).
Proof.
  intros ((N & P) & T). split; auto. cbn [increment_cell e_data]. 
  destruct (sset_names (e_data c) "id" (JId (e_id c + inc + inc))) as [E|(Ni & E)]; split; rewrite E; auto.
  - apply (Permutation_NoDup (Permutation_cons_append _ _)). constructor; auto.
  - intros n Hn. apply in_app_or in Hn as [Hn|[<-|[]]]; auto. cbn. intuition discriminate.
Qed.
Lemma load_bounds_times p b : load_bounds p = Ok b -> time_range b = [].
Proof.
  assert (B : forall la oa b, Boundary la oa [] = Ok b -> time_range b = []).
  { intros la oa b0. unfold Boundary. destruct la as [|? [|? ?]]; try discriminate. destruct oa as [|? [|? ?]]; try discriminate.
    destruct (qltb _ _); [discriminate|]. destruct (_ || _); [discriminate|]. intros E. injection E as <-. auto. }
  unfold load_bounds. destruct p as [r|[|a [|b' [|? ?]]]]; try discriminate; apply B.
Qed.
Lemma NoDup_filter_names (d : sdict jval) p : NoDup (map fst d) -> NoDup (map fst (filter p d)).
Proof.
  induction d as [|kv d IH]; cbn [map filter]; auto. intros N. inversion_clear N as [|? ? N1 N2].
  destruct (p kv); cbn [map]; auto. constructor; auto. intros X. apply N1. apply in_map_iff in X as (z & E & Hz).
  apply filter_In in Hz as (Hz & _). rewrite <- E. apply in_map; auto.
Qed.
Lemma cell_tidy j c : NoDup (map fst j) -> cell_from_json j = Ok c -> tidy c.
Proof.
  intros N. unfold cell_from_json. destruct (sget j "id") as [[| |i|]|]; try discriminate.
  destruct (sget j "geometry") as [[| | |p]|]; try discriminate.
  destruct (load_bounds p) as [b|] eqn:L; [|discriminate]. cbn [bind]. intros E. injection E as <-.
  split; [|cbn [e_bounds]; eapply load_bounds_times; eauto]. cbn [e_data]. split; [apply NoDup_filter_names; auto|].
  intros n Hn X. apply in_map_iff in Hn as (kv & <- & Hk). apply filter_In in Hk as (_ & R). apply negb_true_iff in R.
  assert (R' : reserved (fst kv) = true); [|congruence]. apply reserved_In. cbn [In] in *. tauto.
Qed.
Lemma mapM_in {A B} (f : A -> res B) : forall l l' y, mapM f l = Ok l' -> In y l' -> exists x, In x l /\ f x = Ok y.
Proof.
  induction l as [|x l IH]; intros l' y; cbn [mapM].
  - intros E. injection E as <-. intros [].
  - destruct (f x) as [z|] eqn:Ez; [|discriminate]. cbn [bind]. destruct (mapM f l) as [l0|] eqn:El; [|discriminate]. cbn [bind].
    intros E. injection E as <-. intros [<-|H]; [exists x; split; auto; left; auto|].
    destruct (IH l0 y eq_refl H) as (q & Hq & Eq). exists q. split; auto. right; auto.
Qed.
Lemma load_tidy j m : proper_file j -> load_from_json j = Ok m -> forall c, In c (em_cells m) -> tidy c.
Proof.
  intros N. unfold load_from_json. cbv zeta. destruct (Boundary _ _ _); [|discriminate]. cbn [bind].
  destruct (mapM cell_from_json (j_cells j)) as [cs|] eqn:E; [|discriminate]. cbn [bind]. intros X. injection X as <-.
  cbn [em_cells]. intros c Hc. destruct (mapM_in _ _ _ _ E Hc) as (d & Hd & Ed). eapply cell_tidy; eauto.
Qed.
Lemma load_frame j m : load_from_json j = Ok m -> em_bounds m = c_region (em_config m) /\ accepted (em_bounds m).
Proof.
  unfold load_from_json. cbv zeta. destruct (Boundary _ _ _) as [b|] eqn:B; [|discriminate]. cbn [bind].
  destruct (mapM cell_from_json (j_cells j)) as [cs|]; [|discriminate]. cbn [bind]. intros X. injection X as <-.
  cbn [em_bounds em_config]. destruct (c_region (j_config j)) as [a1 a2 a3 a4 ts]. cbn [lat_min lat_max long_min long_max time_range] in B.
  unfold Boundary in B. destruct ts as [|t0 ts]; [|destruct ts as [|t1 ts]; [discriminate|]];
  (destruct (qltb_spec a2 a1) as [|H1]; [discriminate|];
  destruct (qltb_spec a3 (-180)) as [|H2]; [discriminate|]; destruct (qltb_spec 180 a4) as [|H3]; [discriminate|]; cbn [orb] in B;
  unfold accepted); [|destruct ts; [|discriminate]].
  - injection B as <-. split; auto. cbn [lat_min lat_max long_min long_max time_range]. split; [lra|left; auto].
  - destruct (Z.ltb_spec t1 t0); [discriminate|]. injection B as <-. split; auto.
    cbn [lat_min lat_max long_min long_max time_range]. split; [lra|]. right. exists t0, t1. auto.
Qed.

Lemma merge_all_tidy ms : forall base m, well_kept base -> Forall (fits base) ms -> Forall (aligned_with base) ms ->
  (forall c, In c (em_cells base) -> tidy c) -> (forall o c, In o ms -> In c (em_cells o) -> tidy c) ->
  merge_all base ms = Ok m -> forall c, In c (em_cells m) -> tidy c.
Proof.
  induction ms as [|o ms IH]; intros base m W F A T0 T1; unfold merge_all; cbn [foldM].
  - intros E. injection E as <-. auto.
  - inversion_clear F as [|? ? F1 F2]. inversion_clear A as [|? ? A1 A2].
    destruct (merge_step base o W F1 A1) as (m1 & o' & E & W1 & B1 & C1 & L1). rewrite E. cbn [bind fst].
    pose proof (frame_append _ _ _ B1 C1) as Fr. apply (IH m1); auto.
    + rewrite Forall_forall in *. intros q Hq. eapply frame_fits; eauto.
    + rewrite Forall_forall in *. intros q Hq. eapply frame_aligned; eauto.
    + rewrite L1. intros c Hc. apply in_app_or in Hc as [Hc|Hc].
      * apply kept_in in Hc as [Hc _]. auto.
      * apply in_map_iff in Hc as (z & <- & Hz). apply tidy_moved. apply (T1 o); auto. left; auto.
    + intros q c Hq. apply T1. right; auto.
Qed.

(** A tidy regional mesh, written and read. *)
Lemma written_again m : well_kept m -> em_bounds m = c_region (em_config m) -> accepted (em_bounds m) ->
  (forall c, In c (em_cells m) -> tidy c) ->
  exists m', load_from_json (to_json m) = Ok m' /\ well_kept m' /\ em_bounds m' = em_bounds m /\ em_config m' = em_config m /\
    (forall x y c, seen m x y c -> exists c', seen m' x y c' /\ same_sight c c').
Proof.
  intros W Eb Acc Td. pose proof W as ((N & P & Ap & L) & Pb & T & Hs & G).
  set (again := fun c => mkE (e_bounds c) (filter unreserved (e_data c)) (e_id c)).
  set (m' := mkEM (em_bounds m) (map again (em_cells m)) (em_graph m) (em_config m)).
  assert (Sh : same_shape m m').
  { split; auto. split; auto. split; auto. cbn [m' em_cells]. rewrite map_map. reflexivity. }
  exists m'. split; [|split; [|split; [|split]]]; auto.
  - unfold load_from_json, to_json. cbn [j_config j_cells j_graph]. rewrite <- Eb.
    destruct Acc as ((A1 & A2 & A3) & A4). rewrite Boundary_ok by auto. cbn [bind].
    assert (E : mapM cell_from_json (map cell_to_json (em_cells m)) = Ok (map again (em_cells m))).
    { assert (H : forall c, In c (em_cells m) -> tidy c /\ drawable (e_bounds c)) by (intros c Hc; split; auto; apply plane_drawable; auto).
      revert H. clear. generalize (em_cells m). induction l as [|c l IH]; intros H; cbn [map mapM]; auto.
      destruct (H c (or_introl eq_refl)) as ((Np & Tc) & D). rewrite cell_again by auto. cbn [bind].
      rewrite IH by (intros; apply H; right; auto). cbn [bind]. unfold again at 2. do 3 f_equal.
      destruct (e_bounds c) as [? ? ? ? ts]. cbn in Tc. subst ts. reflexivity. }
    rewrite E. cbn [bind]. rewrite (contacts_written _ _ _ L). unfold m'. do 2 f_equal.
    destruct (em_bounds m) as [? ? ? ? ?]. reflexivity.
  - split; [eapply shape_sound; eauto; apply W|]. split; auto. split; [eapply shape_tiles; eauto|]. split; auto.
    intros c Hc. destruct (shape_in _ _ _ Sh Hc) as (z & Hz & <- & _). auto.
  - intros x y c (Hc & Mc). exists (again c). split; [split; auto; apply in_map; auto|]. split; [reflexivity|].
    intros n Hn. cbn [again e_data]. pose proof (proj1 (Td c Hc)) as (Nn & Pn).
    destruct (reserved n) eqn:R.
    + apply reserved_In in R. assert (Hno : ~ In n (map fst (e_data c))).
      { intros Hin. apply Pn in Hin. apply Hin. cbn [In] in *. intuition congruence. }
      rewrite (sget_none (e_data c)) by auto. apply sget_none. intros X. apply Hno.
      apply in_map_iff in X as (kv & E & Hk). apply filter_In in Hk as (Hk & _). rewrite <- E. apply in_map; auto.
    + generalize (e_data c). induction s as [|(k, v) d IH]; cbn [filter sget]; auto.
      unfold unreserved at 1. cbn [fst]. destruct (String.eqb_spec n k) as [<-|Ne].
      * rewrite R. cbn [negb sget]. rewrite String.eqb_refl. auto.
      * destruct (negb (reserved k)); auto. cbn [sget]. destruct (String.eqb_spec n k); [congruence|]. auto.
Qed.

Theorem cli_ok d0 ds m0 ms : load_from_json d0 = Ok m0 -> Forall2 (fun d m => load_from_json d = Ok m) ds ms ->
  proper_file d0 -> Forall proper_file ds ->
  well_kept m0 -> Forall (fits m0) ms -> Forall (aligned_with m0) ms ->
  exists out m, merge_mesh_cli d0 ds = Ok out /\ load_from_json out = Ok m /\ well_kept m /\
    em_bounds m = em_bounds m0 /\ c_merged (em_config m) = c_merged (em_config m0) ++ map em_config ms /\ stacked m0 ms m.
Proof.
  intros L0 Ls P0 Ps W F A. destruct (merge_all_ok ms m0 W F A) as (m & E & Wm & Bm & Fr & Rm & Mm & St).
  destruct (load_frame _ _ L0) as (B0 & Acc).
  destruct (written_again m Wm) as (m' & L' & W' & B' & C' & S').
  - congruence.
  - congruence.
  - apply (merge_all_tidy ms m0 m W F A); auto.
    + exact (load_tidy d0 m0 P0 L0).
    + clear - Ls Ps. intros o c Ho. revert Ps. induction Ls as [|d q ds ms Lq Ls IH]; intros Ps; [destruct Ho|].
      inversion_clear Ps. destruct Ho as [->|Ho]; auto. apply (load_tidy d o); auto.
  - exists (to_json m), m'. split; [|split; [auto|split; [auto|split; [congruence|split; [congruence|]]]]].
    + unfold merge_mesh_cli. rewrite L0. cbn [bind]. rewrite (merge_files_all _ _ Ls), E. reflexivity.
    + intros x y Cv t Tp. destruct (St x y Cv t Tp) as (c & c1 & Hc & Hc1 & Sc). destruct (S' x y c1 Hc1) as (c2 & Hc2 & Sc2).
      exists c, c2. split; auto. split; auto. eapply sight_trans; eauto.
Qed.

Theorem cli_order d0 ds ds' m0 ms ms' : load_from_json d0 = Ok m0 ->
  Forall2 (fun d m => load_from_json d = Ok m) ds ms -> Forall2 (fun d m => load_from_json d = Ok m) ds' ms' -> Permutation ms ms' ->
  proper_file d0 -> Forall proper_file ds -> Forall proper_file ds' ->
  well_kept m0 -> Forall (fits m0) ms -> Forall (aligned_with m0) ms -> ForallOrdPairs disjoint ms ->
  exists out out' m m', merge_mesh_cli d0 ds = Ok out /\ merge_mesh_cli d0 ds' = Ok out' /\
    load_from_json out = Ok m /\ load_from_json out' = Ok m' /\
    forall x y, covers m0 x y -> exists c c', seen m x y c /\ seen m' x y c' /\ same_sight c c'.
Proof.
  intros L0 Ls Ls' P Pd Pds Pds' W F A D.
  assert (F' : Forall (fits m0) ms') by (rewrite Forall_forall in *; intros q Hq; apply F; eapply Permutation_in; [symmetry; exact P|auto]).
  assert (A' : Forall (aligned_with m0) ms') by (rewrite Forall_forall in *; intros q Hq; apply A; eapply Permutation_in; [symmetry; exact P|auto]).
  destruct (cli_ok d0 ds m0 ms L0 Ls Pd Pds W F A) as (out & m & E & L & _ & _ & _ & St).
  destruct (cli_ok d0 ds' m0 ms' L0 Ls' Pd Pds' W F' A') as (out' & m' & E' & L' & _ & _ & _ & St').
  exists out, out', m, m'. split; auto. split; auto. split; auto. split; auto. intros x y Cv.
  destruct (on_top_total m0 ms x y) as (t & Tp).
  destruct (St x y Cv t Tp) as (a & b & Ha & Hb & Hab).
  destruct (St' x y Cv t (on_top_perm _ _ _ _ _ _ D P Tp)) as (a' & b' & Ha' & Hb' & Hab').
  exists b, b'. split; auto. split; auto.
  assert (Ea : a = a').
  { destruct Tp as [(-> & _)|(l1 & l2 & Em & _)].
    - destruct W as (S0 & _ & T0 & _). exact (seen_unique m0 x y a a' S0 T0 Ha Ha').
    - assert (Ft : fits m0 t) by (rewrite Forall_forall in F; apply F; rewrite Em; apply in_or_app; right; left; auto).
      destruct Ft as (S0 & _ & _ & _ & T0 & _). exact (seen_unique t x y a a' S0 T0 Ha Ha'). }
  subst a'. eapply sight_trans; [apply sight_sym; exact Hab|exact Hab'].
Qed.

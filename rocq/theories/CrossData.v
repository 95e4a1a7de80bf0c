(** The data of the cells of a mesh over a region that crosses the antimeridian. *)
From Verif Require Import Base Geo Graph Cell Loaders Builder Env Spec MeshSpec GlobeSpec CrossSpec EnvSpec DataSpec QLib CaseProofs SplitGeo Dict Rep SplitCore Stage BuilderSplit Invariant Grid Build Consequences Reach MeshFacts TrimProofs AggProofs FillProofs Adaptive ChainProofs AdaptiveFacts GlobeProofs Cross CrossInv CrossBuild CrossSound StepInv PipeSpec CrossPipeSpec.
Open Scope Z_scope.

(** ** Trimming *)
Definition globe_box (a : boundary) : Prop :=
  (-180 < long_min a <= 180 /\ in_domain (long_max a) /\ 0 < x1 (region a) - x0 (region a) < 360)%Q.
Lemma int_cases3 (k : Z) : (inject_Z k <= -1)%Q \/ k = 0 \/ k = 1 \/ (2 <= inject_Z k)%Q.
Proof.
  destruct (Z_le_gt_dec k (-1)); [left; change (-1)%Q with (inject_Z (-1)); rewrite <- Zle_Qle; auto|].
  destruct (Z.eq_dec k 0); [auto|]. destruct (Z.eq_dec k 1); [auto|].
  do 3 right. change 2%Q with (inject_Z 2). rewrite <- Zle_Qle. lia.
Qed.
Lemma xr_spatial_globe b p : globe_box b -> (-180 < p_long p <= 180)%Q ->
  (xr_spatial b p = true <-> mem_globe (region b) (p_long p) (p_lat p)).
Proof.
  intros (A & (B1 & B2) & C) P. unfold xr_spatial, mem_globe, mem.
  assert (Y0 : y0 (region b) = lat_min b) by reflexivity. assert (Y1 : y1 (region b) = lat_max b) by reflexivity.
  assert (X0 : x0 (region b) = long_min b) by reflexivity. rewrite X0, Y0, Y1 in *.
  revert C. cbn [region x1]. destruct (qltb_spec (long_min b) (long_max b)) as [L|L]; intros C; split; intros H.
  - exists 0. change (inject_Z 0) with 0%Q. revert H. qsplit; intros H; try discriminate; repeat split; lra.
  - destruct H as (k & H1 & H2). destruct (int_cases3 k) as [K|[->|[->|K]]];
      change (inject_Z 0) with 0%Q in *; change (inject_Z 1) with 1%Q in *; try (exfalso; lra).
    qsplit; reflexivity.
  - assert (X : (p_long p <= long_max b \/ long_max b < p_long p)%Q) by (destruct (Qlt_le_dec (long_max b) (p_long p)); auto).
    destruct X as [X|X]; [exists 1; change (inject_Z 1) with 1%Q|exists 0; change (inject_Z 0) with 0%Q];
      revert H; qsplit; intros H; try discriminate; repeat split; lra.
  - destruct H as (k & H1 & H2). destruct (int_cases3 k) as [K|[->|[->|K]]];
      change (inject_Z 0) with 0%Q in *; change (inject_Z 1) with 1%Q in *; try (exfalso; lra); qsplit; reflexivity.
Qed.
Lemma selected_filter_in {A} (P : A -> Prop) (f : A -> bool) l : (forall p, In p l -> (f p = true <-> P p)) -> selected P l (filter f l).
Proof.
  induction l as [|a l IH]; intros H; [constructor|]. cbn. pose proof (H a (or_introl eq_refl)) as Ha.
  destruct (f a); [apply sel_take; [apply Ha; auto|]|apply sel_skip; [intros X; apply Ha in X; discriminate|]]; apply IH; intros; apply H; right; auto.
Qed.
Lemma xr_trim_globe b d : globe_box b -> times_ok (time_range b) -> standard_longitudes d ->
  selected (belongs_globe b) d (xr_trim_rows b d).
Proof.
  intros G T S. apply selected_filter_in. intros p Hp. unfold belongs_globe.
  rewrite andb_true_iff, in_time_spec, xr_spatial_globe by auto. tauto.
Qed.
Definition trims_globe (ld : loader) : Prop :=
  forall b d, globe_box b -> times_ok (time_range b) -> standard_longitudes d -> selected (belongs_globe b) d (l_trim ld b d).
Lemma selected_standard P d d' : selected P d d' -> standard_longitudes d -> standard_longitudes d'.
Proof.
  intros S H. induction S as [|x l l' Hx S IH|x l l' Hx S IH]; auto.
  - intros p [<-|Hp]; [apply H; left; auto|]. apply IH; auto. intros q Hq. apply H. right. auto.
  - apply IH. intros q Hq. apply H. right. auto.
Qed.

(** ** Cells and their quarters on the globe *)
Lemma frame_box off W a v : (W < 360)%Q -> in_frame W v -> unrolled off a v -> globe_box a.
Proof.
  intros HW [([R1 R2] & V1 & V2 & _) V3] ((A1 & A2) & (A3 & A4) & k & K0 & K1). split; auto. split; auto. rewrite K0, K1. lra.
Qed.
Lemma kid_mem off W c k q v x y : in_frame W v -> unrolled off c v -> unrolled off k (qb q v) ->
  mem_globe (region k) x y -> mem_globe (region c) x y.
Proof.
  intros Fr Uc Uk M. destruct (qb_ok W q v Fr) as [Fq Qq].
  assert (Rv : regular v) by apply Fr. assert (Rq : regular (qb q v)) by apply Fq.
  apply (moved_mem off k (qb q v) x y Rq (unrolled_moved _ _ _ Uk)) in M. apply (moved_mem off c v x y Rv (unrolled_moved _ _ _ Uc)).
  destruct M as (j & M). exists j. eapply quarter_mem; [apply (frame_proper W); auto|exact Qq|exact M].
Qed.
Lemma kid_quarter off W c k q v : in_frame W v -> unrolled off c v -> unrolled off k (qb q v) ->
  globe_quarter q (region c) (region k).
Proof.
  intros Fr ((A1 & A2) & _ & kc & C0 & C1) ((B1 & B2) & _ & kk & K0 & K1). destruct (qb_ok W q v Fr) as [Fq Qq].
  assert (Rv : regular v) by apply Fr. assert (Rq : regular (qb q v)) by apply Fq.
  pose proof (regular_x1 v Rv) as Xv. pose proof (regular_x1 _ Rq) as Xq.
  exists (kc + - kk). rewrite inject_Z_plus, inject_Z_opp.
  assert (Y0 : forall b, y0 (region b) = lat_min b) by reflexivity. assert (Y1 : forall b, y1 (region b) = lat_max b) by reflexivity.
  assert (X0 : forall b, x0 (region b) = long_min b) by reflexivity.
  destruct q; unfold quarter, xmid, ymid, shift in *; cbn [x0 x1 y0 y1] in *; rewrite ?Y0, ?Y1, ?Xv, ?Xq in *;
    rewrite ?K0, ?K1, ?C0, ?C1; rewrite !X0 in Qq; rewrite ?A1, ?A2, ?B1, ?B2; unfold Qdiv in *; change (/ 2)%Q with (1#2) in *; destruct Qq as (Q1 & Q2 & Q3 & Q4); repeat split; lra.
Qed.

(** ** What the cells hold *)
Definition cell_globe_ok (srcs : list metadata) (times : list Z) (c : cellbox) : Prop :=
  time_range (cb_bounds c) = times /\ globe_box (cb_bounds c) /\
  Forall2 (fun s0 s => meta_head s = meta_head s0 /\ selected (belongs_globe (cb_bounds c)) (m_subset s0) (m_subset s)) srcs (cb_sources c).
Definition source_globe_ok (s : metadata) : Prop := trims_globe (m_loader s) /\ standard_longitudes (m_subset s).

Definition chain_ok (srcs : list metadata) (b : boundary) (cw ch : Q) (m : mesh) : Prop :=
  forall i c, live_cell m i c -> Forall (cell_globe_ok srcs (time_range b)) (c :: ancestors c) /\
    globe_nested b cw ch (map cb_bounds (c :: ancestors c)) /\ cb_depth c = Z.of_nat (List.length (ancestors c)).

Lemma split_chain_ok off W F srcs b cw ch m i m' : (W < 360)%Q -> cross_sound off W F m -> split_and_replace m i = Ok m' ->
  times_ok (time_range b) -> (forall s, In s srcs -> source_globe_ok s) ->
  chain_ok srcs b cw ch m -> chain_ok srcs b cw ch m'.
Proof.
  intros HW S E Tt Tr Ch. destruct (split_some _ _ _ E) as (c & L).
  destruct (sound_split off W F m i c HW S L) as (mx & kidc & E' & S' & K & v & Fr & Uc & Uk).
  rewrite E in E'. injection E' as <-. intros j x Hj.
  apply (gafter m i c m' kidc L K) in Hj as [[Hj _]|(q & -> & ->)]; [eapply Ch; eauto|].
  destruct K as (_ & _ & Hk). destruct (Hk q) as (_ & K2 & K3 & K4 & K5).
  rewrite (ancestors_kid _ _ K3). destruct (Ch i c L) as (Fc & Nc & Dc).
  inversion Fc as [|? ? (T1 & T2 & T4) _]; subst.
  assert (Gk : globe_box (cb_bounds (kidc q))). { apply (frame_box off W _ (qb q v)); auto. apply (qb_ok W q v Fr). }
  split; [|split].
  - constructor; auto. split; [congruence|]. split; auto.
    rewrite K4. unfold child_sources. apply Forall2_map_r.
    eapply Forall2_impl'; [|exact T4]. cbn. intros s0 s Hs0 [E1 E2]. split; [exact E1|].
    destruct (Tr s0 Hs0) as [Tl Ts].
    eapply selected_twice; [|exact E2|].
    + intros p [M D]. split; [eapply (kid_mem off W _ _ q v); eauto|]. eapply on_date_same; [|exact D]. auto.
    + injection E1 as L1 _ _. rewrite L1. apply Tl; auto; [congruence|]. eapply selected_standard; eauto.
  - cbn [map]. apply (gnested_quarter b cw ch q); [eapply kid_quarter; eauto|congruence|exact Nc].
  - rewrite K2, Dc. cbn [List.length]. lia.
Qed.
Lemma splits_chain_ok off W F srcs b cw ch m m' : (W < 360)%Q -> cross_sound off W F m -> splits m m' ->
  times_ok (time_range b) -> (forall s, In s srcs -> source_globe_ok s) ->
  chain_ok srcs b cw ch m -> chain_ok srcs b cw ch m'.
Proof.
  intros HW S H Tt Tr Ch. induction H as [|m m1 m2 i H IH E]; auto.
  eapply (split_chain_ok off W F srcs b cw ch m1 i m2); eauto. eapply splits_sound; eauto.
Qed.

(** ** The initial cells *)
Lemma crossing_cell b cw ch srcs m i c : crossing b -> (0 < cw)%Q -> (0 < ch)%Q -> build_mesh b cw ch srcs = Ok m -> live_cell m i c ->
  time_range (cb_bounds c) = time_range b /\ cb_parent c = None /\ cb_depth c = 0 /\
  cb_sources c = initialize_meta_data_subsets (cb_bounds c) srcs /\ globe_grid_cell b cw ch (cb_bounds c).
Proof.
  intros Cr Hcw Hch E L. destruct (crossing_meaningful b Cr) as (Mb & Lo & T).
  assert (V : validate_bounds b cw ch = Ok tt).
  { unfold build_mesh in E. destruct (validate_bounds b cw ch) as [[]|]; [auto|discriminate]. }
  destruct (wrap_columns b cw ch Mb Lo Hcw Hch V) as (R & C & HR0 & HC & HR).
  assert (L' : (long_max b <= long_min b)%Q) by lra.
  rewrite (wrap_build b cw ch R C Mb T L' Hcw Hch HC HR srcs Lo V) in E. injection E as <-.
  unfold live_cell in L. cbn [cells] in L. apply (wcs_inv b cw ch R C srcs) in L as [Li ->].
  split; [reflexivity|]. split; [reflexivity|]. split; [reflexivity|]. split; [reflexivity|].
  pose proof (Cpos' b cw C Mb Hcw HC) as CP.
  assert (Hm : (i mod Z.to_nat C < Z.to_nat C)%nat) by (apply Nat.mod_upper_bound; lia).
  assert (Hd : (i / Z.to_nat C < Z.to_nat R)%nat) by (apply Nat.div_lt_upper_bound; lia).
  assert (Hz : 0 <= Z.of_nat (i mod Z.to_nat C) < C) by lia.
  assert (Hr : Z.of_nat (i / Z.to_nat C) + 1 <= R) by lia.
  destruct (wcol b cw R C Hcw HC _ Hz) as (P1 & P2). destruct (wlong b cw C _ Hz) as ((D1 & D2) & k & K).
  assert (Hr' : (inject_Z (Z.of_nat (i / Z.to_nat C)) + 1 <= inject_Z R)%Q).
  { change 1%Q with (inject_Z 1). rewrite <- inject_Z_plus, <- Zle_Qle. exact Hr. }
  exists (Z.of_nat (i mod Z.to_nat C)), (Z.of_nat (i / Z.to_nat C)), k. split; [lia|].
  pose proof (width_region b) as WE.
  unfold wcellbox, wcell. cbv zeta. cbn [cb_bounds].
  change (y0 (region b)) with (lat_min b). change (y1 (region b)) with (lat_max b). change (x0 (region b)) with (long_min b) in *.
  remember (x1 (region b)) as xb eqn:Exb. clear Exb.
  revert D1 D2 K. generalize (longitude_domain (long_min b + inject_Z (Z.of_nat (i mod Z.to_nat C)) * cw)). intros lo D1 D2 K.
  cbn [region x0 x1 y0 y1 long_min long_max lat_min lat_max].
  assert (Y : (lat_min b + inject_Z (Z.of_nat (i / Z.to_nat C)) * ch + ch <= lat_max b)%Q) by nra.
  assert (X : ((if qltb lo (if qleb (lo + cw) 180 then lo + cw else lo + cw - 360) then (if qleb (lo + cw) 180 then lo + cw else lo + cw - 360)
               else (if qleb (lo + cw) 180 then lo + cw else lo + cw - 360) + 360) == lo + cw)%Q).
  { pose proof (crossing_width b Cr). destruct (qleb_spec (lo + cw) 180); [destruct (qltb_spec lo (lo + cw)); lra|destruct (qltb_spec lo (lo + cw - 360)); lra]. }
  rewrite X. repeat split; lra.
Qed.

Lemma crossing_chain_ok b cw ch srcs m : crossing b -> (0 < cw)%Q -> (0 < ch)%Q -> build_mesh b cw ch srcs = Ok m ->
  (forall s, In s srcs -> source_globe_ok s) -> chain_ok srcs b cw ch m.
Proof.
  intros Cr Hcw Hch E Tr i c L. destruct (crossing_cell b cw ch srcs m i c Cr Hcw Hch E L) as (T & P & D & Sr & G).
  rewrite (ancestors_root _ P). destruct (crossing_meaningful b Cr) as (_ & _ & Tt).
  destruct (crossing_build_inv b cw ch srcs m Cr Hcw Hch E) as (_ & u & (C1 & _) & _).
  destruct (C1 i c L) as (_ & _ & Fr & U). pose proof (frame_box _ _ _ _ (crossing_width b Cr) Fr U) as Gb.
  split; [|split].
  - constructor; [|constructor]. split; auto. split; auto. rewrite Sr. unfold initialize_meta_data_subsets.
    apply Forall2_map_r. apply Forall2_same. intros s Hs. cbn. split; auto. destruct (Tr s Hs) as [X Y]. apply X; auto. congruence.
  - cbn [map]. apply gnested_grid; auto.
  - auto.
Qed.
Lemma crossing_first b cw ch srcs m : crossing b -> (0 < cw)%Q -> (0 < ch)%Q -> build_mesh b cw ch srcs = Ok m -> (lat_min b < lat_max b)%Q ->
  exists c0, live_cell m 0 c0.
Proof.
  intros Cr Hcw Hch E La. destruct (crossing_meaningful b Cr) as (Mb & Lo & T).
  assert (V : validate_bounds b cw ch = Ok tt).
  { unfold build_mesh in E. destruct (validate_bounds b cw ch) as [[]|]; [auto|discriminate]. }
  destruct (wrap_columns b cw ch Mb Lo Hcw Hch V) as (R & C & HR0 & HC & HR).
  assert (L' : (long_max b <= long_min b)%Q) by lra.
  rewrite (wrap_build b cw ch R C Mb T L' Hcw Hch HC HR srcs Lo V) in E. injection E as <-.
  pose proof (Cpos' b cw C Mb Hcw HC) as CP.
  assert (R <> 0). { intros ->. change (inject_Z 0) with 0%Q in HR. lra. }
  eexists. unfold live_cell. cbn [cells]. apply wcs_nth. nia.
Qed.
Lemma crossing_sources b cw ch srcs m : crossing b -> (0 < cw)%Q -> (0 < ch)%Q -> build_mesh b cw ch srcs = Ok m -> sources_ok (map meta_head srcs) m.
Proof.
  intros Cr Hcw Hch E i c L. destruct (crossing_cell b cw ch srcs m i c Cr Hcw Hch E L) as (_ & _ & _ & -> & _).
  unfold initialize_meta_data_subsets. rewrite map_map. apply map_ext. auto.
Qed.

(** Splits of any cells of a mesh over a region crossing the antimeridian: they do
    not raise, and the graph never lists a cell that does not touch. *)
From Verif Require Import Base Geo Graph Cell Builder Spec MeshSpec GlobeSpec CrossSpec QLib CaseProofs SplitGeo Dict Rep SplitCore Stage BuilderSplit Invariant Grid Build Consequences GlobeProofs Cross CrossInv CrossBuild.
Open Scope Z_scope.

Definition sound_with (u : Z -> boundary) (m : mesh) : Prop :=
  exists s f, rep KI (ng m) (live_of (cells m)) f /\ exact_for (live_of (cells m)) s f /\
    (forall a b, live_of (cells m) a -> live_of (cells m) b -> s b a = - s a b) /\
    (forall a b, s a b = 0 \/ exists d, s a b = code d) /\
    (forall a b, live_of (cells m) a -> live_of (cells m) b -> s a b = 0 \/ s a b = icase false u a b).
Definition cross_sound (off W : Q) (F : box) (m : mesh) : Prop :=
  glob m = false /\ exists u, cells_with off W F u m /\ sound_with u m.

Lemma live_frame off W F u m j : cells_with off W F u m -> live_of (cells m) j -> cell_ok false (u j).
Proof. intros (C1 & _) L. apply live_of_inv in L as (n & c & -> & L). apply (C1 n c L). Qed.

Lemma exact_sound off W F m : cross_inv off W F m -> cross_sound off W F m.
Proof.
  intros (Gl & u & CW & f & R & E). split; auto. exists u. split; auto. exists (icase false u), f.
  split; auto. split; auto. split; [|split; [apply icase_range|auto]].
  apply (fam_anti false (live_of (cells m)) u). intros j. eapply live_frame; eauto.
Qed.
Lemma sound_cells off W F m : cross_sound off W F m -> cross_cells off W F m.
Proof. intros (G & u & C & _). split; eauto. Qed.

Lemma sound_contacts off W F m : (W < 360)%Q -> cross_sound off W F m -> only_contacts touches_mod m.
Proof.
  intros HW (Gl & u & (C1 & C2 & _) & s & f & R & E & An & Rg & Tr). pose proof R as (R1 & R2 & R3). split; [|split]; auto.
  - intros k. rewrite R2. split.
    + intros (z & -> & L). apply live_of_inv in L as (i & c & -> & L). eauto.
    + intros (i & c & -> & L). exists (Z.of_nat i). split; auto. eapply live_of_cell; eauto.
  - intros i c d Hi. pose proof (live_of_cell m i c Hi) as Li.
    assert (Hd : forall d, In (code d) dirs) by (intros; apply In_dirs_code; eauto).
    exists (f (Z.of_nat i) (code d)).
    split; [apply (rep_get KI _ (live_of (cells m))); auto|].
    destruct (E _ _ Li (Hd d)) as [N X]. split; auto. intros z Hz. apply X in Hz as [Lz Ez].
    pose proof Lz as Lz'. apply live_of_inv in Lz' as (j & c' & -> & Lj).
    exists j, c', (f (Z.of_nat j) (code (opposite d))). split; auto. split; auto. split; [|split].
    + destruct (C1 _ _ Hi) as (_ & _ & Fi & Ui). destruct (C1 _ _ Lj) as (_ & _ & Fj & Uj).
      rewrite (frame_lin W off _ _ (u (Z.of_nat i)) (u (Z.of_nat j)) d HW Fi Fj Ui Uj).
      apply (case_contact false (u (Z.of_nat i)) (u (Z.of_nat j)) (proj1 Fi) (proj1 Fj) d).
      destruct (Tr _ _ Li Lz) as [Z|Z]; [rewrite Ez in Z; destruct (code_nonzero _ Z)|]. unfold icase in Z. congruence.
    + apply (rep_get KI _ (live_of (cells m))); auto.
    + apply (E _ _ Lz (Hd _)). split; auto. rewrite (An (Z.of_nat i) (Z.of_nat j)) by auto. rewrite Ez, code_opposite. reflexivity.
Qed.

(** The cells of a split. *)
Definition kids_of (m : mesh) (i : nat) (c : cellbox) (m' : mesh) (kidc : quad -> cellbox) : Prop :=
  cells m' = list_set (cells m ++ map Some (map kidc quads)) i None /\ glob m' = glob m /\
  forall q, cb_id (kidc q) = kid_idx m q /\ cb_depth (kidc q) = cb_depth c + 1 /\ cb_parent (kidc q) = Some c /\
    cb_sources (kidc q) = child_sources (cb_bounds (kidc q)) (cb_sources c) /\
    time_range (cb_bounds (kidc q)) = time_range (cb_bounds c).

Theorem sound_split off W F m i c : (W < 360)%Q -> cross_sound off W F m -> live_cell m i c ->
  exists m' kidc, split_and_replace m i = Ok m' /\ cross_sound off W F m' /\ kids_of m i c m' kidc /\
    exists v, in_frame W v /\ unrolled off (cb_bounds c) v /\ forall q, unrolled off (cb_bounds (kidc q)) (qb q v).
Proof.
  intros HW (Gl & u & CW & s & f & R & E & An & Rg & Tr) Li.
  pose proof CW as (C1 & _). destruct (C1 i c Li) as (_ & T & Fr & U).
  destruct (split_bounds_cross off W (cb_bounds c) (u (Z.of_nat i)) HW Fr U T) as (ks & Eb & Hk).
  set (kidc := fun q => mkCell (ks q) (kid_idx m q) (cb_depth c + 1) (child_sources (ks q) (cb_sources c)) (Some c)).
  assert (Es : cell_split c (Z.of_nat (List.length (cells m))) = Ok (map kidc quads)).
  { unfold cell_split. rewrite Eb. cbn. repeat f_equal; rewrite ?Z.add_0_r; auto. }
  assert (Kh : forall q, cb_id (kidc q) = kid_idx m q /\ unrolled off (cb_bounds (kidc q)) (qb q (u (Z.of_nat i))) /\
            times_ok (time_range (cb_bounds (kidc q)))).
  { intros q. cbn [kidc cb_id cb_bounds]. destruct (Hk q) as [H1 H2]. rewrite H2. auto. }
  destruct (sound_step off W F u m i c HW CW Li kidc Kh s f R E An Rg Tr) as (g' & Eg & f' & Rf' & Ef').
  exists (m1 m i kidc g'), kidc. split; [apply (cell_split_m1 m i c Gl Li kidc); auto|].
  split; [|split].
  - split; [exact Gl|]. exists (u' u m i). split; [apply (cells_after off W F u m i c CW Li kidc Kh)|].
    exists (lists' u m i kidc s), f'. split; [exact Rf'|]. split; [exact Ef'|].
    assert (Al : forall j, live_of (cells (m1 m i kidc g')) j -> all_live (kid_idx m) (live_of (cells m)) j).
    { intros j Hj. apply (NL_iff m i c Li kidc) in Hj as [[Hj _]|Hj]; [left; auto|right; auto]. }
    split; [|split].
    + intros a b A B. apply (lists'_anti off W F u m i c CW Li kidc Kh); auto.
    + apply lists'_range. exact Rg.
    + intros a b A B. apply (lists'_true off W F u m i c HW CW Li kidc Kh); auto.
  - split; [reflexivity|]. split; [reflexivity|]. intros q. cbn [kidc cb_id cb_depth cb_parent cb_sources cb_bounds].
    repeat (split; auto). apply Hk.
  - exists (u (Z.of_nat i)). split; auto. split; auto. intros q. apply Hk.
Qed.

Lemma split_some m i m' : split_and_replace m i = Ok m' -> exists c, live_cell m i c.
Proof.
  intros E. unfold split_and_replace in E.
  destruct (py_nth (cells m) (Z.of_nat i)) as [o|e] eqn:En; [|discriminate]. cbn [bind] in E.
  destruct o as [c|]; [|discriminate]. exists c. apply py_nth_ok in En; [|lia]. rewrite Nat2Z.id in En. auto.
Qed.
Lemma splits_sound off W F m m' : (W < 360)%Q -> cross_sound off W F m -> splits m m' -> cross_sound off W F m'.
Proof.
  intros HW H S. induction S as [|m m1 m2 i S IH E]; auto. specialize (IH H). destruct (split_some _ _ _ E) as (c & Li).
  destruct (sound_split off W F m1 i c HW IH Li) as (mx & kidc & E' & I' & _). rewrite E in E'. injection E' as <-. exact I'.
Qed.

Theorem crossing_sound b cw ch srcs m0 m : crossing b -> (0 < cw)%Q -> (0 < ch)%Q -> build_mesh b cw ch srcs = Ok m0 -> splits m0 m ->
  only_contacts touches_mod m /\ forall i c, live_cell m i c -> exists m', split_and_replace m i = Ok m'.
Proof.
  intros Cr Hcw Hch E S. pose proof (crossing_build_inv b cw ch srcs m0 Cr Hcw Hch E) as I.
  pose proof (splits_sound _ _ _ _ _ (crossing_width b Cr) (exact_sound _ _ _ _ I) S) as X.
  split; [eapply sound_contacts; [apply (crossing_width b Cr)|exact X]|].
  intros i c L. destruct (sound_split _ _ _ m i c (crossing_width b Cr) X L) as (m' & kidc & E' & _). eauto.
Qed.

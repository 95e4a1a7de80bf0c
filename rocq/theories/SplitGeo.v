(** Geometry of splitting: how contact with a cell relates to contact with its
    four quarters, in the plane and on the cylinder. *)
From Verif Require Import Base Geo Graph Spec QLib CaseProofs.
Open Scope Q_scope.

Definition sep (a b : box) : Prop :=
  x1 a <= x0 b \/ x1 b <= x0 a \/ y1 a <= y0 b \/ y1 b <= y0 a.

Lemma sep_sym a b : sep a b -> sep b a.
Proof. unfold sep. tauto. Qed.

Lemma sep_apart a b : proper a -> proper b -> (sep a b <-> apart a b).
Proof.
  intros [Pa1 Pa2] [Pb1 Pb2]. unfold sep, apart. split.
  - intros H x y ((?&?)&(?&?)). lra.
  - intros H.
    destruct (Qlt_le_dec (x0 b) (x1 a)) as [H1|]; [|auto].
    destruct (Qlt_le_dec (x0 a) (x1 b)) as [H2|]; [|auto].
    destruct (Qlt_le_dec (y0 b) (y1 a)) as [H3|]; [|auto].
    destruct (Qlt_le_dec (y0 a) (y1 b)) as [H4|]; [|auto].
    exfalso.
    destruct (proj2 (interval_overlap _ _ _ _ Pa1 Pb1) (conj H2 H1)) as (x & ? & ?).
    destruct (proj2 (interval_overlap _ _ _ _ Pa2 Pb2) (conj H4 H3)) as (y & ? & ?).
    apply (H x y). tauto.
Qed.

(** A contact of quarter [q] in direction [d] is a contact of the whole cell in
    direction [up q d]; [None] cannot happen from outside. *)
Definition up (q : quad) (d : compass) : option compass :=
  match q, d with
  | qNW, dN => Some dN | qNW, dNE => Some dN | qNW, dW => Some dW | qNW, dSW => Some dW | qNW, dNW => Some dNW
  | qNE, dN => Some dN | qNE, dNW => Some dN | qNE, dE => Some dE | qNE, dSE => Some dE | qNE, dNE => Some dNE
  | qSW, dS => Some dS | qSW, dSE => Some dS | qSW, dW => Some dW | qSW, dNW => Some dW | qSW, dSW => Some dSW
  | qSE, dS => Some dS | qSE, dSW => Some dS | qSE, dE => Some dE | qSE, dNE => Some dE | qSE, dSE => Some dSE
  | _, _ => None
  end.

(** The corner direction of a quarter. *)
Definition corner_of (q : quad) : compass :=
  match q with qNW => dNW | qNE => dNE | qSW => dSW | qSE => dSE end.

(** Contact between sibling quarters. *)
Definition sibling (q q' : quad) : option compass :=
  match q, q' with
  | qNW, qNE => Some dE | qNW, qSW => Some dS | qNW, qSE => Some dSE
  | qNE, qNW => Some dW | qNE, qSW => Some dSW | qNE, qSE => Some dS
  | qSW, qNW => Some dN | qSW, qNE => Some dNE | qSW, qSE => Some dE
  | qSE, qNW => Some dNW | qSE, qNE => Some dN | qSE, qSW => Some dW
  | _, _ => None
  end.

Lemma quarter_proper q c x : proper c -> quarter q c x -> proper x.
Proof. unfold proper, xmid, ymid. destruct q; unfold quarter, xmid, ymid; intros; lra. Qed.

Lemma quarter_sep q c x j : proper c -> quarter q c x -> sep c j -> sep x j.
Proof.
  unfold proper, sep. destruct q; unfold quarter, xmid, ymid; intros P Hq [Hs|[Hs|[Hs|Hs]]];
  first [ left; lra | right; left; lra | right; right; left; lra | right; right; right; lra ].
Qed.

Lemma siblings_sep q q' c x x' : proper c -> quarter q c x -> quarter q' c x' -> q <> q' -> sep x x'.
Proof.
  unfold proper, sep. destruct q, q'; unfold quarter, xmid, ymid; intros P Hq Hq' N;
  try congruence;
  first [ left; lra | right; left; lra | right; right; left; lra | right; right; right; lra ].
Qed.

Lemma lin_up q d c x j : proper c -> proper j -> quarter q c x -> sep c j -> lin d x j ->
  match up q d with Some d' => lin d' c j | None => False end.
Proof.
  unfold proper, sep. intros P Pj Hq Hs H.
  destruct q, d; cbn [up lin] in *; unfold quarter, xmid, ymid in Hq; destruct Hq as (?&?&?&?);
  destruct Hs as [Hs|[Hs|[Hs|Hs]]]; repeat split; lra.
Qed.

Lemma lin_corner q c x j : proper c -> quarter q c x -> lin (corner_of q) c j -> lin (corner_of q) x j.
Proof. intros P Hq. destruct q; cbn in *; lra. Qed.

Lemma lin_sibling q q' d c x x' : proper c -> quarter q c x -> quarter q' c x' ->
  sibling q q' = Some d -> lin d x x'.
Proof.
  unfold proper. intros P H H' E.
  destruct q, q'; cbn in E; try discriminate; injection E as <-; cbn in *;
  unfold xmid, ymid in *; lra.
Qed.

(** Two cells at the same corner of a third overlap. *)
Definition is_corner (d : compass) : bool := match d with dNE | dSE | dSW | dNW => true | _ => false end.
Lemma corner_unique d i a b : is_corner d = true -> proper a -> proper b ->
  lin d i a -> lin d i b -> ~ sep a b.
Proof. unfold proper, sep. destruct d; try discriminate; cbn; intros; lra. Qed.

(** ** The plane and the cylinder together *)
(** [contact gl]: contact in the plane, or modulo 360 degrees when [gl]. *)
Definition contact (gl : bool) (d : compass) (a b : box) : Prop :=
  if gl then lin_mod d a b else lin d a b.

(** Well-formed cells of a regional (global) mesh. *)
Definition cell_ok (gl : bool) (b : boundary) : Prop :=
  regular b /\ -180 <= long_min b /\ long_max b <= 180 /\
  (gl = true -> long_max b - long_min b < 180).

Definition box_ok (gl : bool) (a : box) : Prop :=
  in_circle a /\ (gl = true -> x1 a - x0 a < 180).

Lemma cell_ok_box gl b : cell_ok gl b -> box_ok gl (region b).
Proof.
  intros (R & H1 & H2 & H3). split; [split; [apply regular_proper; auto|]|];
  rewrite regular_x1 by auto; auto.
Qed.

Lemma case_contact gl a b : cell_ok gl a -> cell_ok gl b ->
  forall d, get_neighbour_case gl a b = code d <-> contact gl d (region a) (region b).
Proof.
  intros (Ra & A1 & A2 & A3) (Rb & B1 & B2 & B3) d. destruct gl.
  - apply global_case_lin; repeat split; auto; try apply Ra; try apply Rb.
  - unfold get_neighbour_case. cbn [andb contact]. apply case_bounds_lin; auto.
Qed.

Lemma case_range gl a b :
  get_neighbour_case gl a b = 0%Z \/ exists d, get_neighbour_case gl a b = code d.
Proof.
  unfold get_neighbour_case, get_global_mesh_neighbour_case, get_neighbour_case_bounds. cbv zeta.
  destruct (gl && on_global_bound a b);
  repeat match goal with |- context [if ?c then _ else _] => destruct c end;
  first [ left; reflexivity
        | right; first [ exists dNE; reflexivity | exists dE; reflexivity | exists dSE; reflexivity
                       | exists dS; reflexivity | exists dSW; reflexivity | exists dW; reflexivity
                       | exists dNW; reflexivity | exists dN; reflexivity ] ].
Qed.

Lemma shift_proper q a : proper a -> proper (shift q a).
Proof. unfold proper; cbn; intros; lra. Qed.

Lemma lin_shift q d a b : lin d (shift q a) (shift q b) <-> lin d a b.
Proof. destruct d; cbn; lra. Qed.

Lemma lin_shift_l q d a b : lin d (shift q a) b <-> lin d a (shift (- q) b).
Proof. destruct d; cbn; lra. Qed.

Lemma lin_shift_eq q q' d a b : q == q' -> lin d a (shift q b) -> lin d a (shift q' b).
Proof. destruct d; cbn; lra. Qed.

Lemma contact_sym gl d a b : contact gl d a b -> contact gl (opposite d) b a.
Proof.
  destruct gl; cbn.
  - intros (k & H). exists (-k)%Z. apply lin_sym in H. apply lin_shift_l in H.
    eapply lin_shift_eq; [|exact H]. rewrite inject_Z_opp. lra.
  - apply lin_sym.
Qed.

Lemma contact_unique gl d d' a b : box_ok gl a -> box_ok gl b ->
  contact gl d a b -> contact gl d' a b -> d = d'.
Proof.
  intros [Ca Wa] [Cb Wb]. destruct gl; cbn.
  - apply lin_mod_unique; auto.
  - destruct Ca, Cb. apply lin_unique; auto.
Qed.

Lemma sep_shift k a b : in_circle a -> in_circle b -> sep a b -> sep a (shift (inject_Z k * 360) b).
Proof.
  intros ([Pa1 Pa2] & A1 & A2) ([Pb1 Pb2] & B1 & B2) H.
  assert (K : (k <= -1 \/ k = 0 \/ 1 <= k)%Z) by lia.
  destruct K as [K|[-> | K]].
  - right; left. assert (inject_Z k <= -1) by (change (-1) with (inject_Z (-1)); rewrite <- Zle_Qle; lia).
    cbn. lra.
  - change (inject_Z 0) with 0. unfold sep in *; cbn.
    destruct H as [H|[H|[H|H]]]; [left|right;left|right;right;left|right;right;right]; lra.
  - left. assert (1 <= inject_Z k) by (change 1 with (inject_Z 1); rewrite <- Zle_Qle; lia).
    cbn. lra.
Qed.

Lemma contact_up gl q d c x j : in_circle c -> in_circle j -> quarter q c x -> sep c j ->
  contact gl d x j -> exists d', up q d = Some d' /\ contact gl d' c j.
Proof.
  intros Cc Cj Hq Hs H. destruct gl; cbn in *.
  - destruct H as (k & H).
    pose proof (lin_up q d c x (shift (inject_Z k * 360) j)) as L.
    destruct (up q d) as [d'|].
    + exists d'; split; auto. exists k. apply L; auto; try apply Cc.
      apply shift_proper, Cj. apply sep_shift; auto.
    + destruct L; auto; try apply Cc. apply shift_proper, Cj. apply sep_shift; auto.
  - pose proof (lin_up q d c x j) as L. destruct (up q d) as [d'|].
    + exists d'; split; auto. apply L; auto; [apply Cc | apply Cj].
    + destruct L; auto; [apply Cc | apply Cj].
Qed.

Lemma contact_corner gl q c x j : proper c -> quarter q c x ->
  contact gl (corner_of q) c j -> contact gl (corner_of q) x j.
Proof.
  intros P Hq. destruct gl; cbn.
  - intros (k & H). exists k. eapply lin_corner; eauto.
  - apply lin_corner; auto.
Qed.

Lemma contact_sibling gl q q' d c x x' : proper c -> quarter q c x -> quarter q' c x' ->
  sibling q q' = Some d -> contact gl d x x'.
Proof.
  intros P Hq Hq' E. pose proof (lin_sibling _ _ _ _ _ _ P Hq Hq' E) as L. destruct gl; cbn; auto.
  exists 0%Z. change (inject_Z 0) with 0. destruct d; cbn in *; lra.
Qed.

Lemma contact_corner_unique gl d i a b : is_corner d = true ->
  in_circle i -> in_circle a -> in_circle b ->
  contact gl d i a -> contact gl d i b -> ~ sep a b.
Proof.
  intros Hd Ci Ca Cb H H'. destruct gl; cbn in *.
  - intro S. destruct H as (k & H), H' as (k' & H').
    apply (corner_unique d (shift (- (inject_Z k * 360)) i) a (shift (inject_Z (k' - k) * 360) b)); auto.
    + apply Ca.
    + apply shift_proper, Cb.
    + apply lin_shift_l. eapply lin_shift_eq; [|exact H]. lra.
    + apply lin_shift_l. revert H'. rewrite (Zplus_comm k' (-k)) || idtac.
      unfold Z.sub. rewrite inject_Z_plus, inject_Z_opp. clear. destruct d; cbn; lra.
    + apply sep_shift; auto.
  - eapply corner_unique; eauto; [apply Ca | apply Cb].
Qed.

Lemma contact_irrefl gl d a : box_ok gl a -> ~ contact gl d a a.
Proof.
  intros [Ca Wa] H. destruct gl; cbn in H.
  - apply lin_mod_cases in H; auto. destruct Ca as ([P1 P2] & C1 & C2). specialize (Wa eq_refl).
    destruct H as [H | [[? H] | [? H]]]; destruct d; cbn in *; try discriminate; lra.
  - destruct Ca as ([P1 P2] & _). destruct d; cbn in H; lra.
Qed.

Lemma contact_sep gl d a b : box_ok gl a -> box_ok gl b -> contact gl d a b -> sep a b.
Proof.
  intros [Ca Wa] [Cb Wb] H. destruct gl; cbn in H.
  - apply lin_mod_cases in H; auto. destruct Ca as ([P1 P2] & C1 & C2), Cb as ([P3 P4] & C3 & C4).
    specialize (Wa eq_refl). specialize (Wb eq_refl). unfold sep. destruct H as [H | [[? H] | [? H]]]; destruct d; cbn in *; try discriminate; first [left; lra|right; left; lra|right; right; left; lra|right; right; right; lra].
  - unfold sep. destruct d; cbn in H; first [left; lra|right; left; lra|right; right; left; lra|right; right; right; lra].
Qed.

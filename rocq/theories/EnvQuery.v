(** Point queries and refinement around points. *)
From Verif Require Import Base Geo Graph Cell Builder Env Spec MeshSpec EnvSpec QLib CaseProofs SplitGeo Dict Rep SplitCore Stage BuilderSplit Invariant Consequences EnvSplit EnvInv EnvMerge EnvJson EnvLink.
From Coq Require Import Qround Qpower.
Open Scope Z_scope.

(** ** Which points a cell contains *)
Lemma rect_contains w s e n x y : (w < e)%Q -> (s < n)%Q ->
  ring_contains (rect_ring w s e n) x y = true <-> (w < x < e /\ s < y < n)%Q.
Proof.
  intros H1 H2. unfold ring_contains. destruct (load_rect w s e n H1 H2) as (-> & -> & -> & ->).
  rewrite !Bool.andb_true_iff, !qltb_true. tauto.
Qed.

Lemma contains_plane c lat long : plane_bounds (e_bounds c) ->
  contains_point c lat long = true <-> interior (region (e_bounds c)) long lat.
Proof.
  intros P. pose proof (plane_region _ P) as (X0 & X1 & Y0 & Y1). destruct P as ((P1 & P2 & P3 & P4) & _).
  unfold contains_point, to_polygon. destruct (qltb_spec (long_min (e_bounds c)) (long_max (e_bounds c))); [|contradiction].
  unfold polygon_contains. rewrite rect_contains by auto. unfold interior. rewrite X0, X1, Y0, Y1. tauto.
Qed.

Lemma contains_drawable c lat long : drawable (e_bounds c) -> (-180 < long < 180)%Q ->
  contains_point c lat long = true <-> interior_mod (region (e_bounds c)) long lat.
Proof.
  intros (H1 & H2 & H3 & H4) HL. unfold contains_point, to_polygon, interior_mod, region, interior.
  destruct (qltb_spec (long_min (e_bounds c)) (long_max (e_bounds c))) as [L|L]; cbn [x0 x1 y0 y1 polygon_contains].
  - rewrite rect_contains by auto. split.
    + intros H. exists 0. change (inject_Z 0) with 0%Q. lra.
    + intros (k & Hk & Hy). split; auto. assert (k = 0).
      { destruct (Z.eq_dec k 0); auto. exfalso. destruct (Z.lt_ge_cases k 0) as [X|X].
        - assert (Y : (inject_Z k <= inject_Z (-1))%Q) by (rewrite <- Zle_Qle; lia). change (inject_Z (-1)) with (-1)%Q in Y. lra.
        - assert (Y : (inject_Z 1 <= inject_Z k)%Q) by (rewrite <- Zle_Qle; lia). change (inject_Z 1) with 1%Q in Y. lra. }
      subst k. change (inject_Z 0) with 0%Q in Hk. lra.
  - destruct H4 as [H4|(H4 & H5 & H6)]; [lra|].
    destruct (qeqb_spec (long_min (e_bounds c)) 180); [lra|]. destruct (qeqb_spec (long_max (e_bounds c)) (-180)); [lra|].
    cbn [polygon_contains existsb]. rewrite !Bool.orb_true_iff, !rect_contains by auto. split.
    + intros [H|[H|H]]; [exists 0|exists 1|discriminate].
      * change (inject_Z 0) with 0%Q. lra.
      * change (inject_Z 1) with 1%Q. lra.
    + intros (k & Hk & Hy). assert (K : k = 0 \/ k = 1).
      { destruct (Z.eq_dec k 0); auto. destruct (Z.eq_dec k 1); auto. exfalso. destruct (Z.lt_ge_cases k 0) as [X|X].
        - assert (Y : (inject_Z k <= inject_Z (-1))%Q) by (rewrite <- Zle_Qle; lia). change (inject_Z (-1)) with (-1)%Q in Y. lra.
        - assert (Y : (inject_Z 2 <= inject_Z k)%Q) by (rewrite <- Zle_Qle; lia). change (inject_Z 2) with 2%Q in Y. lra. }
      destruct K as [-> | ->].
      * change (inject_Z 0) with 0%Q in Hk. left. lra.
      * change (inject_Z 1) with 1%Q in Hk. right; left. lra.
Qed.

(** ** Queries *)
Lemma query_inside_iff m lat long : query_inside_mesh m lat long = true <->
  exists c, In c (em_cells m) /\ contains_point c lat long = true.
Proof. unfold query_inside_mesh. rewrite existsb_exists. tauto. Qed.

Lemma query_unique m lat long : NoDup (ids (em_cells m)) ->
  (forall c c', In c (em_cells m) -> In c' (em_cells m) -> contains_point c lat long = true ->
     contains_point c' lat long = true -> e_id c = e_id c') ->
  (forall i, query_index m lat long = Ok i <-> exists c, In c (em_cells m) /\ e_id c = i /\ contains_point c lat long = true) /\
  (query_index m lat long = Err PlainException <-> query_inside_mesh m lat long = false).
Proof.
  intros N U. unfold query_index.
  assert (F : forall c, In c (filter (fun c => contains_point c lat long) (em_cells m)) <-> In c (em_cells m) /\ contains_point c lat long = true).
  { intros c. apply filter_In. }
  assert (NF : NoDup (filter (fun c => contains_point c lat long) (em_cells m))).
  { apply NoDup_filter. eapply NoDup_map_inv; exact N. }
  assert (QI : query_inside_mesh m lat long = false <-> forall c, In c (em_cells m) -> contains_point c lat long = false).
  { unfold query_inside_mesh. split.
    - intros H c Hc. destruct (contains_point c lat long) eqn:E; auto. rewrite <- H. symmetry. apply existsb_exists. eauto.
    - intros H. destruct (existsb _ _) eqn:E; auto. apply existsb_exists in E as (c & Hc & E). rewrite H in E; auto. }
  rewrite QI. clear QI. destruct (filter _ _) as [|c l].
  - split.
    + intros i. split; [discriminate|]. intros (c & Hc & _ & E). exfalso. apply (F c); auto.
    + split; auto. intros _ c Hc. destruct (contains_point c lat long) eqn:E; auto. exfalso. apply (F c); auto.
  - destruct (proj1 (F c) (or_introl eq_refl)) as (Hc & Ec). destruct l as [|c' l].
    + split.
      * intros i. split; [intros E; injection E as <-; eauto|]. intros (x & Hx & <- & Ex). f_equal. auto.
      * split; [discriminate|]. intros H. rewrite H in Ec; auto. discriminate.
    + exfalso. destruct (proj1 (F c') (or_intror (or_introl eq_refl))) as (Hc' & Ec').
      assert (c = c') by (eapply same_id; eauto). subst. inversion NF as [|? ? X]. apply X. left; auto.
Qed.

Theorem query_plane m lat long : env_inv m ->
  (forall i, query_index m lat long = Ok i <->
     exists c, In c (em_cells m) /\ e_id c = i /\ interior (region (e_bounds c)) long lat) /\
  (query_index m lat long = Err PlainException <-> ~ exists c, In c (em_cells m) /\ interior (region (e_bounds c)) long lat) /\
  (query_inside_mesh m lat long = true <-> exists c, In c (em_cells m) /\ interior (region (e_bounds c)) long lat).
Proof.
  intros I. pose proof I as (N & P & S & _). unfold ids in N.
  assert (QI : query_inside_mesh m lat long = true <-> exists c, In c (em_cells m) /\ interior (region (e_bounds c)) long lat).
  { rewrite query_inside_iff. split; intros (c & Hc & H); exists c; (split; auto); apply contains_plane; auto. }
  destruct (query_unique m lat long N) as [Q1 Q2].
  { intros c c' Hc Hc' E E'. apply contains_plane in E; auto. apply contains_plane in E'; auto.
    destruct (Z.eq_dec (e_id c) (e_id c')); auto. exfalso. specialize (S c c' Hc Hc' n). unfold sep, interior in *. lra. }
  split; [|split; auto].
  - intros i. rewrite Q1. split; intros (c & Hc & Ei & H); exists c; (split; [|split]); auto; apply contains_plane; auto.
  - rewrite Q2, <- QI. destruct (query_inside_mesh m lat long); split; congruence.
Qed.

Theorem query_globe m lat long : NoDup (map e_id (em_cells m)) ->
  (forall c, In c (em_cells m) -> drawable (e_bounds c)) -> cells_apart_mod (em_cells m) -> (-180 < long < 180)%Q ->
  (forall i, query_index m lat long = Ok i <->
     exists c, In c (em_cells m) /\ e_id c = i /\ interior_mod (region (e_bounds c)) long lat) /\
  (query_index m lat long = Err PlainException <-> ~ exists c, In c (em_cells m) /\ interior_mod (region (e_bounds c)) long lat) /\
  (query_inside_mesh m lat long = true <-> exists c, In c (em_cells m) /\ interior_mod (region (e_bounds c)) long lat).
Proof.
  intros N D A HL.
  assert (QI : query_inside_mesh m lat long = true <-> exists c, In c (em_cells m) /\ interior_mod (region (e_bounds c)) long lat).
  { rewrite query_inside_iff. split; intros (c & Hc & H); exists c; (split; auto); apply contains_drawable; auto. }
  destruct (query_unique m lat long N) as [Q1 Q2].
  { intros c c' Hc Hc' E E'. apply contains_drawable in E; auto. apply contains_drawable in E'; auto. eapply A; eauto. }
  split; [|split; auto].
  - intros i. rewrite Q1. split; intros (c & Hc & Ei & H); exists c; (split; [|split]); auto; apply contains_drawable; auto.
  - rewrite Q2, <- QI. destruct (query_inside_mesh m lat long); split; congruence.
Qed.

(** ** Refining around a point *)
Lemma quarter_off q b k x y : proper b -> quarter q b k -> off_lines b x y -> off_lines k x y.
Proof.
  intros P Hq O i n.
  assert (E : (inject_Z (2 ^ Z.of_nat (S n)) == 2 * inject_Z (2 ^ Z.of_nat n))%Q).
  { rewrite Nat2Z.inj_succ, Z.pow_succ_r, inject_Z_mult by lia. reflexivity. }
  pose proof (O i (S n)) as [O1 O2]. pose proof (O (i + 2 ^ Z.of_nat n) (S n)) as [O3 O4].
  rewrite !inject_Z_plus in *. rewrite E in *.
  set (p := inject_Z (2 ^ Z.of_nat n)) in *. set (z := inject_Z i) in *. clearbody p z.
  destruct (quarter_size q b k Hq) as [W H]. rewrite W, H.
  assert (X : (x0 k == x0 b \/ x0 k == x0 b + (x1 b - x0 b) * (1#2))%Q).
  { destruct q; unfold quarter, xmid in Hq; [left|right|left|right]; lra. }
  assert (Y : (y0 k == y0 b \/ y0 k == y0 b + (y1 b - y0 b) * (1#2))%Q).
  { destruct q; unfold quarter, ymid in Hq; [right|right|left|left]; lra. }
  split; intros C.
  - destruct X as [X|X]; rewrite X in C; [apply O1|apply O3]; lra.
  - destruct Y as [Y|Y]; rewrite Y in C; [apply O2|apply O4]; lra.
Qed.

Lemma quarter_interior q b k x y : proper b -> quarter q b k -> interior k x y -> interior b x y.
Proof. intros P Hq. pose proof (quarter_inside q b k P Hq). unfold interior. lra. Qed.

Lemma off_quarter kid b x y : proper b -> (forall q, quarter q b (kid q)) -> off_lines b x y -> interior b x y ->
  exists q, interior (kid q) x y.
Proof.
  intros P Hq O I. destruct (O 1 1%nat) as [O1 O2]. change (inject_Z (2 ^ Z.of_nat 1)) with 2%Q in *. change (inject_Z 1) with 1%Q in *.
  assert (Nx : ~ (x == xmid b)%Q) by (intros E; apply O1; unfold xmid in E; lra).
  assert (Ny : ~ (y == ymid b)%Q) by (intros E; apply O2; unfold ymid in E; lra).
  clear O O1 O2. unfold interior in *.
  destruct (Q_dec x (xmid b)) as [[L|L]|E]; [| |contradiction]; destruct (Q_dec y (ymid b)) as [[M|M]|E]; try contradiction;
  [exists qSW|exists qNW|exists qSE|exists qNE];
  match goal with |- context [kid ?q] => specialize (Hq q) end; unfold quarter in Hq; lra.
Qed.

Lemma pow2_big (a b : Q) : (0 < b)%Q -> exists n : nat, (a <= b * inject_Z (2 ^ Z.of_nat n))%Q.
Proof.
  intros Hb. pose proof (Qle_ceiling (a / b)) as H. set (z := Qceiling (a / b)) in *. exists (Z.to_nat z).
  assert (H2 : (inject_Z z <= inject_Z (2 ^ Z.of_nat (Z.to_nat z)))%Q).
  { rewrite <- Zle_Qle. destruct (Z.le_gt_cases z 0) as [L|L].
    - transitivity 0; auto. apply Z.pow_nonneg. lia.
    - rewrite Z2Nat.id by lia. apply Z.lt_le_incl, Z.pow_gt_lin_r; lia. }
  assert (E : (a == b * (a / b))%Q) by (field; lra). rewrite E.
  apply Qmult_le_l; auto. lra.
Qed.

(** The kids of a refined cell. *)
Lemma replaced_kids m c m' : replaced m c m' -> exists kid : quad -> ecell,
  (forall q, quarter q (region (e_bounds c)) (region (e_bounds (kid q))) /\ In (kid q) (em_cells m')).
Proof.
  intros (l1 & l2 & sw & nw & se & ne & E & E' & Q1 & Q2 & Q3 & Q4 & Lt).
  exists (fun q => match q with qSW => sw | qNW => nw | qSE => se | qNE => ne end).
  intros q. split; [destruct q; [apply Q2|apply Q4|apply Q1|apply Q3]|].
  rewrite E'. apply in_or_app; right; apply in_or_app; right. destruct q; cbn; auto.
Qed.
Lemma replaced_keeps m c m' x : replaced m c m' -> In x (em_cells m) -> x <> c -> In x (em_cells m').
Proof.
  intros (l1 & l2 & sw & nw & se & ne & E & E' & _) Hx N. rewrite E in Hx. rewrite E'.
  apply in_app_or in Hx as [Hx|[Hx|Hx]]; [|congruence|]; rewrite !in_app_iff; auto.
Qed.

Lemma generic_replaced m c m' x y : env_inv m -> In c (em_cells m) -> replaced m c m' ->
  generic (em_cells m) x y -> generic (em_cells m') x y.
Proof.
  intros I Hc Rp G k Hk Ik. destruct (replaced_inside _ _ _ _ I Hc Rp Hk) as [[Hk' _]|(q & Hq & _)]; auto.
  assert (P : proper (region (e_bounds c))) by (apply plane_proper; apply I; auto).
  eapply quarter_off; eauto. apply G; auto. eapply quarter_interior; eauto.
Qed.

Lemma esplits_trans m m1 m' : esplits m m1 -> esplits m1 m' -> esplits m m'.
Proof. intros H S. revert H. induction S as [|m1 m2 m3 k S IH E]; auto. intros H. exact (esplits_more _ _ _ _ (IH H) E). Qed.

Section Point.
Variables (lat long : Q).

(** Nothing but cells that held the point and were too large is refined. *)
Definition local_to (m m' : emesh) : Prop :=
  forall x, In x (em_cells m) ->
    ~ interior (region (e_bounds x)) long lat \/ narrow (em_config m) (e_bounds x) \/ low (em_config m) (e_bounds x) ->
    In x (em_cells m').

Definition pos_cfg (m : emesh) : Prop := (0 < c_width (em_config m) /\ 0 < c_height (em_config m))%Q.

Lemma min_pos (w : Q) (d : Z) : (0 < w)%Q -> (0 < w / 2 ^ d)%Q.
Proof.
  intros H. assert (P : (0 < 2 ^ d)%Q).
  { pose proof (Qpower_pos 2 d ltac:(lra)). pose proof (Qpower_not_0 2 d ltac:(lra)).
    destruct (Q_dec 0 (2 ^ d)) as [[L|L]|E]; auto; [lra|]. symmetry in E. contradiction. }
  apply Qlt_shift_div_l; auto. lra.
Qed.

Lemma split_loc_eq m c : env_inv m -> In c (em_cells m) -> interior (region (e_bounds c)) long lat ->
  split_loc m lat long =
  if qleb (get_width (e_bounds c)) (c_width (em_config m) / 2 ^ c_depth (em_config m))%Q ||
     qleb (get_height (e_bounds c)) (c_height (em_config m) / 2 ^ c_depth (em_config m))%Q then Ok (m, false)
  else m' <- esplit_and_replace m (KS (e_id c)) ;; Ok (m', true).
Proof.
  intros I Hc Ic. unfold split_loc. destruct (query_plane m lat long I) as (Q1 & _).
  rewrite (proj2 (Q1 (e_id c))) by eauto. cbn [bind]. rewrite get_cellbox_id by (auto; apply I). reflexivity.
Qed.

Lemma plane_width b : plane_bounds b -> get_width b = (long_max b - long_min b)%Q.
Proof. intros ((P & _) & _). unfold get_width. destruct (qltb_spec (long_min b) (long_max b)); auto. contradiction. Qed.

Definition reached (m0 : emesh) (c0 : ecell) (m : emesh) : Prop :=
  exists c, In c (em_cells m) /\ interior (region (e_bounds c)) long lat /\
    (narrow (em_config m0) (e_bounds c) \/ low (em_config m0) (e_bounds c)) /\
    (c = c0 \/
     ~ (long_max (e_bounds c) - long_min (e_bounds c) <= c_width (em_config m0) / 2 ^ c_depth (em_config m0) * (1#2))%Q /\
     ~ (lat_max (e_bounds c) - lat_min (e_bounds c) <= c_height (em_config m0) / 2 ^ c_depth (em_config m0) * (1#2))%Q).

Lemma split_while_ok n : forall m c, env_inv m -> pos_cfg m -> In c (em_cells m) -> interior (region (e_bounds c)) long lat ->
  generic (em_cells m) long lat ->
  (long_max (e_bounds c) - long_min (e_bounds c) <=
     c_width (em_config m) / 2 ^ c_depth (em_config m) * inject_Z (2 ^ Z.of_nat n))%Q ->
  forall fuel, (n < fuel)%nat ->
  exists m', split_while fuel m lat long = Ok m' /\ env_inv m' /\ esplits m m' /\ local_to m m' /\
    (forall x y, generic (em_cells m) x y -> generic (em_cells m') x y) /\
    em_config m' = em_config m /\ reached m c m'.
Proof.
  induction n as [|n IH]; intros m c I Pc Hc Ic G Hw [|fuel] Hf; try lia; cbn [split_while];
  rewrite (split_loc_eq m c I Hc Ic); assert (P : plane_bounds (e_bounds c)) by (apply I; auto);
  rewrite (plane_width _ P); unfold get_height;
  set (mw := (c_width (em_config m) / 2 ^ c_depth (em_config m))%Q) in *;
  set (mh := (c_height (em_config m) / 2 ^ c_depth (em_config m))%Q) in *;
  destruct (qleb_spec (long_max (e_bounds c) - long_min (e_bounds c))%Q mw) as [N|N];
  try (destruct (qleb_spec (lat_max (e_bounds c) - lat_min (e_bounds c))%Q mh) as [L|L]); cbn [orb];
  try (exists m; cbn [bind snd fst]; split; [reflexivity|]; split; [auto|]; split; [constructor|]; split; [intros x; auto|];
       split; [auto|]; split; [auto|]; exists c; unfold narrow, low; fold mw mh; auto; fail).
  - exfalso. apply N. change (inject_Z (2 ^ Z.of_nat 0)) with 1%Q in Hw. lra.
  - destruct (esplit_ok m c I Hc) as (m1 & E1 & I1 & Rp & Bd & Cf & _). rewrite E1. cbn [bind snd fst].
    destruct (replaced_kids _ _ _ Rp) as (kid & Hkid).
    assert (Pr : proper (region (e_bounds c))) by (apply plane_proper; auto).
    destruct (off_quarter (fun q => region (e_bounds (kid q))) _ long lat Pr (fun q => proj1 (Hkid q)) (G c Hc Ic) Ic) as (q & Iq).
    destruct (Hkid q) as (Hq & Hin). assert (Pk : plane_bounds (e_bounds (kid q))) by (apply I1; auto).
    pose proof (plane_region _ P) as (X0 & X1 & Y0 & Y1). pose proof (plane_region _ Pk) as (X0' & X1' & Y0' & Y1').
    destruct (quarter_size _ _ _ Hq) as [S1 S2]. rewrite X0, X1, X0', X1' in S1. rewrite Y0, Y1, Y0', Y1' in S2.
    destruct (IH m1 (kid q)) with (fuel := fuel) as (m' & E' & I' & Sp & Lo & Ge & Cf' & Re); auto; try lia.
    + unfold pos_cfg. rewrite Cf. auto.
    + exact (generic_replaced m c m1 long lat I Hc Rp G).
    + rewrite Cf. fold mw. rewrite S1. rewrite Nat2Z.inj_succ, Z.pow_succ_r, inject_Z_mult in Hw by lia.
      change (inject_Z 2) with 2%Q in Hw. lra.
    + exists m'. split; auto. split; auto. split; [|split; [|split; [|split]]].
      * apply (esplits_trans m m1 m'); auto. econstructor; [constructor|eauto].
      * intros x Hx Nx. apply Lo; [|rewrite Cf; auto]. eapply replaced_keeps; eauto. intros ->. unfold narrow, low in Nx. tauto.
      * intros x y Gx. apply Ge. exact (generic_replaced m c m1 x y I Hc Rp Gx).
      * congruence.
      * destruct Re as (k & Hk & Ik & Sm & Mi). exists k. rewrite Cf in *. split; auto. split; auto. split; auto.
        destruct Mi as [->|Mi]; auto. right. fold mw mh. split; intros X; [apply N|apply L]; lra.
Qed.
End Point.

Lemma split_while_more fuel fuel' lat long : forall m m', split_while fuel m lat long = Ok m' -> (fuel <= fuel')%nat ->
  split_while fuel' m lat long = Ok m'.
Proof.
  revert fuel'. induction fuel as [|fuel IH]; intros fuel' m m' E L; [discriminate|].
  destruct fuel' as [|fuel']; [lia|]. cbn [split_while] in *. destruct (split_loc m lat long) as [(m1, go)|]; [|discriminate].
  cbn [bind snd fst] in *. destruct go; auto. apply IH; auto. lia.
Qed.

(** ** Several points *)
Definition width_bound (n : nat) (m : emesh) : Prop :=
  forall c, In c (em_cells m) ->
    (long_max (e_bounds c) - long_min (e_bounds c) <=
       c_width (em_config m) / 2 ^ c_depth (em_config m) * inject_Z (2 ^ Z.of_nat n))%Q.

Lemma width_bound_ex m : pos_cfg m -> exists n, width_bound n m.
Proof.
  intros [Pw _]. unfold width_bound. induction (em_cells m) as [|c cs [n Hn]]; [exists O; intros _ []|].
  pose proof (min_pos (c_width (em_config m)) (c_depth (em_config m)) Pw) as Pm.
  destruct (pow2_big (long_max (e_bounds c) - long_min (e_bounds c)) _ Pm) as (n' & Hn').
  exists (max n n'). assert (M : forall k, (k <= max n n')%nat ->
    (c_width (em_config m) / 2 ^ c_depth (em_config m) * inject_Z (2 ^ Z.of_nat k) <=
     c_width (em_config m) / 2 ^ c_depth (em_config m) * inject_Z (2 ^ Z.of_nat (max n n')))%Q).
  { intros k Hk. apply Qmult_le_l; auto. rewrite <- Zle_Qle. apply Z.pow_le_mono_r; lia. }
  intros x [<-|Hx].
  - eapply Qle_trans; [exact Hn'|]. apply M. lia.
  - eapply Qle_trans; [apply Hn; auto|]. apply M. lia.
Qed.

Lemma width_bound_splits n m m' : env_inv m -> esplits m m' -> width_bound n m -> width_bound n m'.
Proof.
  intros I S B. induction S as [m|m m1 m2 k S IH E]; auto. specialize (IH I B).
  pose proof (esplits_inv _ _ I S) as I1. destruct (esplit_cell _ _ _ I1 E) as (c & Hc & ->).
  destruct (esplit_ok m1 c I1 Hc) as (m2' & E' & I' & Rp & _ & Cf & _). rewrite E in E'. injection E' as <-.
  intros x Hx. rewrite Cf. destruct (replaced_inside _ _ _ _ I1 Hc Rp Hx) as [[Hx' _]|(q & Hq & _)]; [apply IH; auto|].
  assert (P : plane_bounds (e_bounds c)) by (apply I1; auto). assert (Pk : plane_bounds (e_bounds x)) by (apply I'; auto).
  pose proof (plane_region _ P) as (X0 & X1 & Y0 & Y1). pose proof (plane_region _ Pk) as (X0' & X1' & Y0' & Y1').
  destruct (quarter_size _ _ _ Hq) as [S1 _]. rewrite X0, X1, X0', X1' in S1. specialize (IH c Hc).
  destruct P as ((P & _) & _). lra.
Qed.

Lemma esplits_covers m m' x y : env_inv m -> esplits m m' -> generic (em_cells m) x y ->
  (exists c, In c (em_cells m) /\ interior (region (e_bounds c)) x y) ->
  exists c, In c (em_cells m') /\ interior (region (e_bounds c)) x y.
Proof.
  intros I S G Ex. enough (H : generic (em_cells m') x y /\ exists c, In c (em_cells m') /\ interior (region (e_bounds c)) x y) by apply H.
  induction S as [m|m m1 m2 k S IH E]; auto. destruct (IH I G Ex) as (G1 & d & Hd & Id).
  pose proof (esplits_inv _ _ I S) as I1. destruct (esplit_cell _ _ _ I1 E) as (c & Hc & ->).
  destruct (esplit_ok m1 c I1 Hc) as (m2' & E' & I' & Rp & _ & Cf & _). rewrite E in E'. injection E' as <-.
  split; [exact (generic_replaced m1 c m2 x y I1 Hc Rp G1)|].
  destruct (Z.eq_dec (e_id d) (e_id c)) as [Ei|Ei].
  - assert (d = c) by (eapply same_id; eauto; apply I1). subst d. destruct (replaced_kids _ _ _ Rp) as (kid & Hkid).
    assert (Pr : proper (region (e_bounds c))) by (apply plane_proper, I1; auto).
    destruct (off_quarter (fun q => region (e_bounds (kid q))) _ x y Pr (fun q => proj1 (Hkid q)) (G1 c Hc Id) Id) as (q & Iq).
    exists (kid q). split; auto. apply Hkid.
  - exists d. split; auto. eapply replaced_keeps; eauto. intros ->; auto.
Qed.

Lemma esplits_interior_back m m' x y : env_inv m -> esplits m m' ->
  (exists c, In c (em_cells m') /\ interior (region (e_bounds c)) x y) ->
  exists c, In c (em_cells m) /\ interior (region (e_bounds c)) x y.
Proof.
  intros I S. induction S as [m|m m1 m2 k S IH E]; auto. specialize (IH I).
  pose proof (esplits_inv _ _ I S) as I1. destruct (esplit_cell _ _ _ I1 E) as (c & Hc & ->).
  destruct (esplit_ok m1 c I1 Hc) as (m2' & E' & I' & Rp & _ & Cf & _). rewrite E in E'. injection E' as <-.
  intros (d & Hd & Id). apply IH. destruct (replaced_inside _ _ _ _ I1 Hc Rp Hd) as [[Hx' _]|(q & Hq & _)]; eauto.
  exists c. split; auto. eapply quarter_interior; eauto. apply plane_proper, I1; auto.
Qed.

Definition small (cfg : config) (b : boundary) : Prop := narrow cfg b \/ low cfg b.

Theorem split_points_ok m points : env_inv m -> pos_cfg m ->
  (forall p, In p points -> generic (em_cells m) (snd p) (fst p)) ->
  exists fuel0, forall fuel, (fuel0 <= fuel)%nat ->
  exists m', split_points fuel m points = Ok m' /\ env_inv m' /\ esplits m m' /\ em_config m' = em_config m /\
    (forall x, In x (em_cells m) -> (forall p, In p points -> ~ interior (region (e_bounds x)) (snd p) (fst p)) \/ small (em_config m) (e_bounds x) ->
       In x (em_cells m')) /\
    (forall p, In p points -> (exists c, In c (em_cells m) /\ interior (region (e_bounds c)) (snd p) (fst p)) ->
       exists c, In c (em_cells m') /\ interior (region (e_bounds c)) (snd p) (fst p) /\ small (em_config m) (e_bounds c)).
Proof.
  intros I Pc. destruct (width_bound_ex m Pc) as (n & Wb). intros G. exists (S n). intros fuel Hf.
  unfold split_points. revert m I Pc Wb G. induction points as [|(lat, long) points IH]; intros m I Pc Wb G; cbn [foldM fst snd].
  - exists m. split; auto. split; auto. split; [constructor|]. split; auto. split; auto. intros p [].
  - assert (X : exists m1, (if query_inside_mesh m lat long then split_while fuel m lat long else Ok m) = Ok m1 /\
        env_inv m1 /\ esplits m m1 /\ local_to lat long m m1 /\
        (forall x y, generic (em_cells m) x y -> generic (em_cells m1) x y) /\ em_config m1 = em_config m /\
        ((exists c, In c (em_cells m) /\ interior (region (e_bounds c)) long lat) ->
           exists c, In c (em_cells m1) /\ interior (region (e_bounds c)) long lat /\ small (em_config m) (e_bounds c))).
    { destruct (query_plane m lat long I) as (_ & _ & Q3). destruct (query_inside_mesh m lat long) eqn:Eq.
      - destruct (proj1 Q3 eq_refl) as (c & Hc & Ic).
        destruct (split_while_ok lat long n m c I Pc Hc Ic) with (fuel := fuel) as (m' & E' & I' & Sp & Lo & Ge & Cf & (d & Hd & Id & Sd & _)); auto.
        { apply (G (lat, long)). left; auto. }
        exists m'. split; auto. split; auto. split; auto. split; auto. split; auto. split; auto. intros _. exists d. auto.
      - exists m. split; auto. split; auto. split; [constructor|]. split; [intros x; auto|]. split; auto. split; auto.
        intros H. apply Q3 in H. discriminate. }
    destruct X as (m1 & -> & I1 & Sp & Lo & Ge & Cf & Re). cbn [bind].
    destruct (IH m1) as (m2 & E2 & I2 & Sp2 & Cf2 & Lo2 & Re2); auto.
    { unfold pos_cfg. rewrite Cf. auto. }
    { exact (width_bound_splits n m m1 I Sp Wb). }
    { intros p Hp. apply Ge, G. right; auto. }
    exists m2. split; auto. split; auto. split; [eapply esplits_trans; eauto|]. split; [congruence|]. rewrite Cf in *. split.
    + intros x Hx [H|H].
      * apply Lo2; [apply Lo; auto; left; apply (H (lat, long)); left; auto|]. left. intros p Hp. apply H. right; auto.
      * apply Lo2; [|auto]. apply Lo; auto.
    + intros p [<-|Hp] Ex.
      * destruct (Re Ex) as (c & Hc & Ic & Sc). exists c. split; auto.
      * apply Re2; auto. destruct Ex as (c & Hc & Ic).
        destruct (esplits_covers m m1 (snd p) (fst p) I Sp (G p (or_intror Hp))) as (d & Hd & Id); eauto.
Qed.

(** ** Cells of the proportions of the base cell are small in both directions *)
Lemma small_both cfg b : (0 < c_width cfg)%Q -> (0 < c_height cfg)%Q -> proportioned (c_width cfg) (c_height cfg) b ->
  small cfg b -> narrow cfg b /\ low cfg b.
Proof.
  unfold small, narrow, low, proportioned. intros Hw Hh P S.
  set (w := c_width cfg) in *. set (h := c_height cfg) in *. set (x := (long_max b - long_min b)%Q) in *.
  set (y := (lat_max b - lat_min b)%Q) in *. unfold Qdiv in *. set (r := (/ 2 ^ c_depth cfg)%Q) in *. clearbody w h x y r.
  destruct S as [S|S]; split; auto.
  - apply Qmult_lt_0_le_reg_r with w; auto. rewrite <- P.
    assert (E : (h * r * w == w * r * h)%Q) by ring. rewrite E. apply Qmult_le_compat_r; lra.
  - apply Qmult_lt_0_le_reg_r with h; auto. rewrite P.
    assert (E : (w * r * h == h * r * w)%Q) by ring. rewrite E. apply Qmult_le_compat_r; lra.
Qed.

(** ** Points on the edges *)
(** A point inside no cell (for example on an edge) is skipped. *)
Lemma split_points_skips fuel m lat long : env_inv m ->
  (forall c, In c (em_cells m) -> ~ interior (region (e_bounds c)) long lat) ->
  split_points fuel m [(lat, long)] = Ok m.
Proof.
  intros I H. unfold split_points. cbn [foldM fst snd]. destruct (query_plane m lat long I) as (_ & _ & Q3).
  destruct (query_inside_mesh m lat long); auto. destruct (proj1 Q3 eq_refl) as (c & Hc & Ic). exfalso. eapply H; eauto.
Qed.

(** A point on a midline of its cell makes the refinement fail after one split. *)
Theorem split_points_midline fuel m c lat long : env_inv m -> In c (em_cells m) -> interior (region (e_bounds c)) long lat ->
  (long == xmid (region (e_bounds c)) \/ lat == ymid (region (e_bounds c)))%Q ->
  ~ small (em_config m) (e_bounds c) -> (2 <= fuel)%nat ->
  split_points fuel m [(lat, long)] = Err PlainException.
Proof.
  intros I Hc Ic Hm Ns Hf. destruct fuel as [|[|fuel]]; try lia. unfold split_points. cbn [foldM fst snd].
  destruct (query_plane m lat long I) as (_ & _ & Q3). rewrite (proj2 Q3) by eauto. cbn [split_while].
  rewrite (split_loc_eq lat long m c I Hc Ic). assert (P : plane_bounds (e_bounds c)) by (apply I; auto).
  rewrite (plane_width _ P). unfold get_height. unfold small, narrow, low in Ns.
  destruct (qleb_spec (long_max (e_bounds c) - long_min (e_bounds c))%Q (c_width (em_config m) / 2 ^ c_depth (em_config m))%Q); [tauto|].
  destruct (qleb_spec (lat_max (e_bounds c) - lat_min (e_bounds c))%Q (c_height (em_config m) / 2 ^ c_depth (em_config m))%Q); [tauto|].
  cbn [orb]. destruct (esplit_ok m c I Hc) as (m1 & E1 & I1 & Rp & Bd & Cf & _). rewrite E1. cbn [bind snd fst].
  unfold split_loc at 1. destruct (query_plane m1 lat long I1) as (_ & Q2 & _). rewrite (proj2 Q2); auto.
  intros (d & Hd & Id). destruct (replaced_inside _ _ _ _ I Hc Rp Hd) as [[Hd' Nd]|(q & Hq & _)].
  - pose proof I as (_ & _ & Sp & _). specialize (Sp d c Hd' Hc Nd). unfold sep, interior in *. lra.
  - unfold interior in *. destruct q; unfold quarter, xmid, ymid in *; lra.
Qed.

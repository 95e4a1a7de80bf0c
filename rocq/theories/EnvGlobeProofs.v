(** Which splits of a loaded mesh around the globe keep its graph exact. *)
From Verif Require Import Base Geo Graph Cell Builder Env Spec MeshSpec EnvSpec CrossSpec EnvGlobeSpec ChainProofs QLib CaseProofs SplitGeo
  Invariant Consequences EnvSplit EnvInv EnvMerge EnvLink EnvGlobe.
Open Scope Z_scope.

Lemma quarter_in q a k : proper a -> quarter q a k -> (x0 a <= x0 k /\ x1 k <= x1 a /\ y0 a <= y0 k /\ y1 k <= y1 a)%Q.
Proof. intros (P1 & P2). unfold quarter, xmid, ymid. destruct q; lra. Qed.

(** Cells away from the antimeridian. *)
Lemma touches_near d a b : touches d a b -> (x0 a <= x1 a)%Q -> (x0 b <= x1 b)%Q -> (x0 b <= x1 a /\ x0 a <= x1 b)%Q.
Proof. unfold touches, x_overlap. destruct d; intros; try lra; destruct H as (_ & x & X); lra. Qed.
Lemma inland_plain m c : (forall x, In x (em_cells m) -> plane_bounds (e_bounds x)) -> In c (em_cells m) -> inland c -> plain_quarters m c.
Proof.
  intros P Hc (I1 & I2) q k x d d' Hx Q _ _ (z & T).
  pose proof (P c Hc) as Pc. pose proof (P x Hx) as Px.
  pose proof (plane_region _ Pc) as (X0 & X1 & _). pose proof (plane_region _ Px) as (Z0 & Z1 & _).
  pose proof (quarter_in q _ _ (plane_proper _ Pc) Q) as (K1 & K2 & _).
  destruct Px as ((W1 & _ & W3 & W4) & _). destruct Pc as ((V1 & _) & _).
  assert (Kx : (x0 k <= x1 k)%Q).
  { unfold quarter, xmid in Q. destruct q; destruct Q as (? & ? & _); rewrite X0, X1 in *; lra. }
  pose proof (touches_near d' _ _ T Kx) as N. cbn [shift x0 x1] in N. change (x0 (shift ?u ?v)) with (x0 v + u)%Q in N.
  assert (z = 0).
  { destruct (Z.lt_trichotomy z 0) as [L|[E|G]]; auto; exfalso.
    - assert (inject_Z z <= -1)%Q by (change (-1)%Q with (inject_Z (-1)); rewrite <- Zle_Qle; lia).
      rewrite X0, X1 in *. unfold shift in N. cbn [x0 x1] in N. rewrite Z0, Z1 in N. lra.
    - assert (1 <= inject_Z z)%Q by (change 1%Q with (inject_Z 1); rewrite <- Zle_Qle; lia).
      rewrite X0, X1 in *. unfold shift in N. cbn [x0 x1] in N. rewrite Z0, Z1 in N. lra. }
  subst z. eapply touches_beq; [| |exact T]; repeat split; cbn; try lra. all: change (inject_Z 0) with 0%Q; lra.
Qed.

(** Cells at the antimeridian of a mesh around the globe. *)
Lemma first_gap (l : list ecell) : exists e, (0 < e <= 1)%Q /\ forall x, In x l -> (-180 < long_min (e_bounds x))%Q -> (-180 + e <= long_min (e_bounds x))%Q.
Proof.
  induction l as [|a l (e & E & H)]; [exists 1%Q; split; [lra|intros x []]|].
  destruct (Qlt_le_dec (-180) (long_min (e_bounds a))) as [L|L].
  - exists (if qltb (long_min (e_bounds a) + 180) e then long_min (e_bounds a) + 180 else e)%Q.
    destruct (qltb_spec (long_min (e_bounds a) + 180) e) as [Q|Q]; (split; [lra|]); intros x [<-|Hx] Lx; try lra; specialize (H x Hx Lx); lra.
  - exists e. split; [auto|]. intros x [<-|Hx] Lx; [lra|auto].
Qed.
Lemma share lo hi s n : (lo < hi)%Q -> (s < hi <= n)%Q -> exists y, (lo < y < hi /\ s < y < n)%Q.
Proof.
  intros A B. destruct (Qlt_le_dec lo s); [exists ((s + hi) * (1#2))%Q|exists ((lo + hi) * (1#2))%Q]; lra.
Qed.
Lemma seam_wrapped b m c : spans_globe b -> (forall x, In x (em_cells m) -> plane_bounds (e_bounds x)) -> env_tiles (region b) (em_cells m) -> In c (em_cells m) ->
  ~ inland c -> ~ plain_quarters m c.
Proof.
  intros (G1 & G2) P T Hc NI QP. pose proof (P c Hc) as Pc. pose proof (plane_region _ Pc) as (X0 & X1 & Y0 & Y1).
  pose proof (tiles_inside _ _ _ T Hc Pc) as (_ & _ & B1 & B2).
  destruct Pc as ((V1 & V2 & V3 & V4) & _).
  assert (R0 : (x0 (region b) == -180)%Q) by (cbn; lra).
  assert (R1 : (x1 (region b) == 180)%Q).
  { cbn. destruct (qltb_spec (long_min b) (long_max b)); lra. }
  set (w := lat_max (e_bounds c)) in *.
  assert (Mid : (ymid (region (e_bounds c)) < w)%Q /\ (lat_min (e_bounds c) <= ymid (region (e_bounds c)))%Q).
  { unfold ymid. rewrite Y0, Y1. fold w. lra. }
  destruct (Qlt_le_dec (-180) (long_min (e_bounds c))) as [W|W].
  - assert (E : (long_max (e_bounds c) == 180)%Q).
    { destruct (Qlt_le_dec (long_max (e_bounds c)) 180) as [L|L]; [|lra]. destruct NI. split; auto. }
    assert (Ex : exists x, In x (em_cells m) /\ (long_min (e_bounds x) == -180)%Q /\ (lat_min (e_bounds x) < w <= lat_max (e_bounds x))%Q).
    { destruct (first_gap (em_cells m)) as (e & Ee & Hg). destruct T as (T1 & _).
      destruct (T1 (-180 + e)%Q w) as (x & Hx & Mx); [unfold mem; lra|]. pose proof (plane_region _ (P x Hx)) as (Z0 & Z1 & Z2 & Z3).
      unfold mem in Mx. rewrite Z0, Z1, Z2, Z3 in Mx. exists x. split; [auto|]. split; [|lra].
      destruct (Qlt_le_dec (-180) (long_min (e_bounds x))) as [L|L]; [specialize (Hg x Hx L); lra|].
      destruct (P x Hx) as ((_ & _ & U3 & _) & _). lra. }
    destruct Ex as (x & Hx & Ex & Ey). pose proof (plane_region _ (P x Hx)) as (Z0 & Z1 & Z2 & Z3).
    destruct (share _ w _ _ (proj1 Mid) Ey) as (y & Y2 & Y3).
    set (k := Box (xmid (region (e_bounds c))) (long_max (e_bounds c)) (ymid (region (e_bounds c))) w).
    assert (Tk : touches_mod dE k (region (e_bounds x))).
    { exists 1. change (inject_Z 1) with 1%Q. split; [cbn -[region]; rewrite Z0; lra|]. exists y. unfold shift. cbn -[region]. rewrite Z2, Z3. lra. }
    assert (Tc : touches_mod dE (region (e_bounds c)) (region (e_bounds x))).
    { exists 1. change (inject_Z 1) with 1%Q. split; [cbn -[region]; rewrite X1, Z0; lra|]. exists y. unfold shift. cbn -[region]. rewrite Y0, Y1, Z2, Z3. lra. }
    destruct (QP qNE k x dE dE Hx) as (K & _); auto.
    + unfold quarter, k. cbn [x0 x1 y0 y1]. rewrite X1, Y1. repeat split; reflexivity.
    + right; left; reflexivity.
    + cbn -[region] in K. rewrite Z0 in K. lra.
  - assert (E : (long_min (e_bounds c) == -180)%Q) by lra.
    assert (Ex : exists x, In x (em_cells m) /\ (long_max (e_bounds x) == 180)%Q /\ (lat_min (e_bounds x) < w <= lat_max (e_bounds x))%Q).
    { destruct T as (T1 & _).
      destruct (T1 180%Q w) as (x & Hx & Mx); [unfold mem; lra|]. pose proof (plane_region _ (P x Hx)) as (Z0 & Z1 & Z2 & Z3).
      unfold mem in Mx. rewrite Z0, Z1, Z2, Z3 in Mx. exists x. split; [auto|].
      destruct (P x Hx) as ((_ & _ & _ & U4) & _). lra. }
    destruct Ex as (x & Hx & Ex & Ey). pose proof (plane_region _ (P x Hx)) as (Z0 & Z1 & Z2 & Z3).
    destruct (share _ w _ _ (proj1 Mid) Ey) as (y & Y2 & Y3).
    set (k := Box (long_min (e_bounds c)) (xmid (region (e_bounds c))) (ymid (region (e_bounds c))) w).
    assert (Tk : touches_mod dW k (region (e_bounds x))).
    { exists (-1). change (inject_Z (-1)) with (-1)%Q. split; [cbn -[region]; rewrite Z1; lra|]. exists y. unfold shift. cbn -[region]. rewrite Z2, Z3. lra. }
    assert (Tc : touches_mod dW (region (e_bounds c)) (region (e_bounds x))).
    { exists (-1). change (inject_Z (-1)) with (-1)%Q. split; [cbn -[region]; rewrite X0, Z1; lra|]. exists y. unfold shift. cbn -[region]. rewrite Y0, Y1, Z2, Z3. lra. }
    destruct (QP qNW k x dW dW Hx) as (K & _); auto.
    + unfold quarter, k. cbn [x0 x1 y0 y1]. rewrite X0, Y1. repeat split; reflexivity.
    + right; right; right; reflexivity.
    + cbn -[region] in K. rewrite Z1 in K. lra.
Qed.

Lemma inland_dec c : inland c \/ ~ inland c.
Proof. unfold inland. destruct (Qlt_le_dec (-180) (long_min (e_bounds c))), (Qlt_le_dec (long_max (e_bounds c)) 180); (left; lra) || (right; lra). Qed.

Lemma globe_cells_inv m : sound_globe m -> cells_inv m.
Proof.
  intros (N & P & A & _). split; [exact N|]. split; [intros x Hx; apply P; auto|]. apply apart_sep; auto. intros x Hx; apply P; auto.
Qed.

(** One split. *)
Theorem globe_split_exactly b m c : spans_globe b -> sound_globe m -> env_tiles (region b) (em_cells m) -> In c (em_cells m) ->
  exists m', esplit_and_replace m (KS (e_id c)) = Ok m' /\ replaced m c m' /\ env_tiles (region b) (em_cells m') /\
    (lists_contacts touches_mod (em_cells m') (em_graph m') <-> inland c) /\ (inland c -> sound_globe m').
Proof.
  intros G S T Hc. destruct (globe_split m c S Hc) as (m' & E & Rp & _ & _ & N' & A' & P' & X).
  exists m'. split; [exact E|]. split; [exact Rp|]. split; [apply (replaced_tiles_of _ m c m' (globe_cells_inv m S) Hc Rp T)|].
  assert (P : forall x, In x (em_cells m) -> plane_bounds (e_bounds x)) by (intros x Hx; apply S; auto).
  assert (Y : inland c -> lists_contacts touches_mod (em_cells m') (em_graph m')) by (intros I; apply X, inland_plain; auto).
  split; [split; [|exact Y]|].
  - intros L. apply X in L. destruct (inland_dec c) as [I|I]; [exact I|]. destruct (seam_wrapped b m c G P T Hc I L).
  - intros I. split; [exact N'|]. split; [exact P'|]. split; [exact A'|auto].
Qed.

(** Splits away from the antimeridian. *)
Theorem inland_history b m m' : spans_globe b -> sound_globe m -> env_tiles (region b) (em_cells m) -> esplits_where (fun _ c => inland c) m m' ->
  sound_globe m' /\ env_tiles (region b) (em_cells m').
Proof.
  intros G S T H. induction H as [|m m1 m2 c H IH Hc I E]; [auto|]. destruct (IH S T) as (S1 & T1).
  destruct (globe_split_exactly b m1 c G S1 T1 Hc) as (x & Ex & _ & T2 & _ & X). rewrite E in Ex. injection Ex as <-. auto.
Qed.

(** Loaded meshes around the globe are in good order. *)
Lemma loaded_globe b cw ch srcs m acs cfg em : admissible b cw ch -> spans_globe b -> reachable b cw ch srcs m ->
  map ac_id acs = map cb_id (live_list m) -> map ac_bounds acs = map cb_bounds (live_list m) ->
  (forall ac, In ac acs -> plain_data (e_data (ecell_of ac))) -> c_region cfg = b ->
  load_from_json (to_json (env_of cfg m acs)) = Ok em ->
  sound_globe em /\ env_tiles (region b) (em_cells em).
Proof.
  intros A G Rm E1 E2 Pd Ec L.
  destruct (built_loads b cw ch srcs m acs cfg A Rm E1 E2 Pd Ec) as (x & L' & _ & _ & _ & N & C & Ap & T & _ & X).
  rewrite L in L'. injection L' as <-. split; [|exact T]. split; [exact N|]. split; [|split; [exact Ap|auto]].
  intros c Hc. destruct (C c Hc) as (_ & P & _ & (i & j & g1 & g2 & _) & _). split; [exact P|].
  destruct A as (_ & _ & _ & D). destruct (D G) as (_ & W). rewrite inject_Z_plus in g2. change (inject_Z 1) with 1%Q in g2.
  assert (long_max (e_bounds c) - long_min (e_bounds c) <= cw)%Q by lra. lra.
Qed.

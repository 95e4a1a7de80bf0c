(** Property theorems C49: adjacency in double precision.  Statements only. *)
From Coq Require Import Floats.SpecFloat Qpower.
From Verif Require Import Base QLib Geo Graph Cell Builder Spec MeshSpec MeshFacts Reach Consequences Floats FloatGeo FloatMesh FloatArith FloatSpec FloatMeshSpec FloatProofs FloatMeshProofs.
Open Scope Z_scope.

(** A region, cell size and number of rows and columns, given as doubles. *)
Definition float_grid (k : Z) (fb : fboundary) (b : boundary) (cw ch : f64) (w h : Q) (rows cols : Z) : Prop :=
  denotes fb b /\ double cw w /\ double ch h /\ multiples k b /\ multiple k w /\ multiple k h /\ on_globe b /\ times_ok (time_range b) /\
  (0 < w <= 360)%Q /\ (0 < h <= 180)%Q /\ 0 <= rows /\ 0 <= cols /\
  (lat_max b - lat_min b == inject_Z rows * h)%Q /\ (x1 (region b) - x0 (region b) == inject_Z cols * w)%Q.

Lemma float_grid_exact k n fb b cw ch w h rows cols : 0 <= k -> k + Z.of_nat n <= 43 -> float_grid k fb b cw ch w h rows cols ->
  exb k fb b /\ good b /\ exists l m, f_grid fb cw ch = Ok l /\ initialize_bounds b w h = Ok m /\ Forall2 (fun f c => exb k f c /\ good c) l m.
Proof.
  intros K0 K (D & Dw & Dh & M & Mw & Mh & G & T & Rw & Rh & R & C & Er & Ec). assert (0 <= k <= 43) as K1 by lia.
  assert (exb k fb b) as X by (apply denotes_exb; assumption). assert (good b) as Gb by (split; assumption). split; [exact X|]. split; [exact Gb|].
  assert (ex k cw w) as W by (split; [apply (double_isf cw w k K1); [split; [exact Mw|lra]|exact Dw]|split; [exact Mw|lra]]).
  assert (ex k ch h) as H by (split; [apply (double_isf ch h k K1); [split; [exact Mh|lra]|exact Dh]|split; [exact Mh|lra]]).
  apply (exact_grid k K1 fb b cw ch w h rows cols); try assumption; try lra.
  rewrite <- Ec. unfold get_width, region. cbn [x0 x1]. qsplit; lra.
Qed.

Lemma float_grid_build k depth fb b cw ch w h rows cols srcs : 0 <= k -> 0 <= depth -> k + depth <= 43 -> float_grid k fb b cw ch w h rows cols -> rows * cols < 2 ^ 52 - 2 ->
  agree (same k depth) (f_build fb cw ch) (build_mesh b w h srcs).
Proof.
  intros K0 D KD (Dn & Dw & Dh & M & Mw & Mh & G & T & Rw & Rh & R & C & Er & Ec) S. assert (0 <= k <= 43) as K1 by lia.
  assert (exb k fb b) as X by (apply denotes_exb; assumption). assert (good b) as Gb by (split; assumption).
  assert (ex k cw w) as W by (split; [apply (double_isf cw w k K1); [split; [exact Mw|lra]|exact Dw]|split; [exact Mw|lra]]).
  assert (ex k ch h) as H by (split; [apply (double_isf ch h k K1); [split; [exact Mh|lra]|exact Dh]|split; [exact Mh|lra]]).
  apply (exact_build k depth fb b cw ch w h rows cols srcs K0 D KD X Gb W H Rw Rh R C); [exact Er| |exact S].
  rewrite <- Ec. unfold get_width, region. cbn [x0 x1]. qsplit; lra.
Qed.

(** C49.  If the region and the cell size are multiples of 2^-k, then through
    43 - k levels of splits every cell's bounds are exact, *)
Theorem C49_exact_partial : forall k depth fb b cw ch w h rows cols, 0 <= k -> k + Z.of_nat depth <= 43 -> float_grid k fb b cw ch w h rows cols ->
  f_validate fb cw ch = validate_bounds b w h /\
  exists l m, f_grid fb cw ch = Ok l /\ initialize_bounds b w h = Ok m /\ Forall2 denotes l m /\
  forall i c e n y, nth_error l i = Some c -> nth_error m i = Some e -> (n <= depth)%nat -> descends n c y ->
    exists e', descends_exactly n e e' /\ denotes y e' /\
      ((n < depth)%nat -> exists l' m', f_split y = Ok l' /\ split_bounds e' = Ok m' /\ Forall2 denotes l' m').
Proof.
  intros k depth fb b cw ch w h rows cols K0 K FG. assert (0 <= k <= 43) as K1 by lia.
  destruct (float_grid_exact k depth fb b cw ch w h rows cols K0 K FG) as (X & G & l & m & E1 & E2 & F).
  destruct FG as (_ & Dw & Dh & _ & Mw & Mh & _ & _ & Rw & Rh & _).
  assert (ex k cw w) as W by (split; [apply (double_isf cw w k K1); [split; [exact Mw|lra]|exact Dw]|split; [exact Mw|lra]]).
  assert (ex k ch h) as H by (split; [apply (double_isf ch h k K1); [split; [exact Mh|lra]|exact Dh]|split; [exact Mh|lra]]).
  split; [apply (exact_validate k K1); try assumption; lra|]. exists l, m. split; [exact E1|]. split; [exact E2|]. split.
  - clear - F. induction F as [|f c l m [H _] _ IH]; constructor; [exact (exb_denotes k f c H)|exact IH].
  - intros i c e n y Ic Ie N D. assert (exb k c e /\ good e) as [Xc Gc].
    { clear - F Ic Ie. revert i Ic Ie. induction F as [|f d l m H _ IH]; intros [|i] Ic Ie; try discriminate; cbn in Ic, Ie; [injection Ic as ->; injection Ie as ->; exact H|eauto]. }
    destruct (exact_descends n k c e y K0 ltac:(lia) Xc Gc D) as (e' & D' & X' & G'). exists e'. split; [exact D'|]. split; [exact (exb_denotes _ _ _ X')|].
    intros L. destruct (exact_split (k + Z.of_nat n) y e' ltac:(lia) ltac:(lia) X' G') as (l' & m' & S1 & S2 & F'). exists l', m'. split; [exact S1|]. split; [exact S2|].
    clear - F'. induction F' as [|f d l m [H _] _ IH]; constructor; [exact (exb_denotes _ f d H)|exact IH].
Qed.
Print Assumptions C49_exact_partial.

(** ... and the answer for any two of them is the direction in which they touch. *)
Theorem C49_partial : forall k depth fb b cw ch w h rows cols, 0 <= k -> k + Z.of_nat depth <= 43 -> float_grid k fb b cw ch w h rows cols ->
  exists l, f_grid fb cw ch = Ok l /\
  forall c c' y y' e e', In c l -> In c' l -> descends depth c y -> descends depth c' y' -> denotes y e -> denotes y' e' ->
    (proper (region e) -> proper (region e') -> (long_min e < long_max e)%Q -> (long_min e' < long_max e')%Q ->
       (forall d, f_case false y y' = code d <-> touches d (region e) (region e')) /\
       (f_case false y y' = 0 <-> forall d, ~ touches d (region e) (region e'))) /\
    (globe_cell e -> globe_cell e' ->
       (forall d, f_case true y y' = code d <-> touches_mod d (region e) (region e')) /\
       (f_case true y y' = 0 <-> forall d, ~ touches_mod d (region e) (region e'))).
Proof.
  intros k depth fb b cw ch w h rows cols K0 K FG.
  destruct (float_grid_exact k depth fb b cw ch w h rows cols K0 K FG) as (_ & _ & l & m & E1 & _ & F). exists l. split; [exact E1|].
  assert (forall c y e, In c l -> descends depth c y -> denotes y e -> exb (k + Z.of_nat depth) y e /\ good (mkB (lat_min e) (lat_max e) (long_min e) (long_max e) [])) as A.
  { intros c y e I D N. assert (exists d, exb k c d /\ good d) as (d & Xd & Gd).
    { clear - F I. induction F as [|f d l m H _ IH]; [contradiction|]. destruct I as [->|I]; [exists d; exact H|exact (IH I)]. }
    destruct (exact_descends depth k c d y K0 ltac:(lia) Xd Gd D) as (e' & _ & (X1 & X2 & X3 & X4) & [G' _]).
    destruct N as ([_ N1] & [_ N2] & [_ N3] & [_ N4]).
    pose proof (means_unique _ _ _ (isf_means _ _ (proj1 X1)) N1) as Q1. pose proof (means_unique _ _ _ (isf_means _ _ (proj1 X2)) N2) as Q2.
    pose proof (means_unique _ _ _ (isf_means _ _ (proj1 X3)) N3) as Q3. pose proof (means_unique _ _ _ (isf_means _ _ (proj1 X4)) N4) as Q4.
    split; [repeat split; eapply ex_eq; eauto|]. split; [|left; reflexivity]. unfold on_globe in *. cbn [lat_min lat_max long_min long_max]. lra. }
  intros c c' y y' e e' Ic Ic' D D' N N'. destruct (A c y e Ic D N) as [X G]. destruct (A c' y' e' Ic' D' N') as [X' G']. clear A.
  assert (forall gl, f_case gl y y' = get_neighbour_case gl e e') as EC.
  { intros gl. 
    exact (exact_case (k + Z.of_nat depth) ltac:(lia) y y' (mkB (lat_min e) (lat_max e) (long_min e) (long_max e) []) (mkB (lat_min e') (lat_max e') (long_min e') (long_max e') []) gl X X' G G'). }
  split.
  - intros P P' L L'. rewrite EC. destruct (case_is_contact e e') as (E & C1 & C2); [split; [exact L|apply P]|split; [exact L'|apply P']|].
    rewrite E. split; [exact C1|exact C2].
  - intros P P'. rewrite EC. apply global_case_is_contact; assumption.
Qed.
Print Assumptions C49_partial.

(** The whole mesh: built and split in double precision it is, cell by cell and
    neighbour list by neighbour list, the mesh built and split with exact numbers,
    whatever cells are split.  (2^52 cells would fill every disk there is.) *)
Theorem C49_mesh : forall k depth fb b cw ch w h rows cols srcs,
  0 <= k -> 0 <= depth -> k + depth <= 43 -> float_grid k fb b cw ch w h rows cols -> rows * cols < 2 ^ 52 - 2 ->
  match f_build fb cw ch, build_mesh b w h srcs with
  | Ok f, Ok m =>
      same_mesh f m /\
      (forall f', f_splits depth f f' -> exists m', splits_by (fun c => cb_depth c < depth) m m' /\ same_mesh f' m') /\
      (forall m', splits_by (fun c => cb_depth c < depth) m m' -> exists f', f_splits depth f f' /\ same_mesh f' m')
  | Err e, Err e' => e = e'
  | _, _ => False
  end.
Proof.
  intros k depth fb b cw ch w h rows cols srcs K D KD FG S. pose proof (float_grid_build k depth fb b cw ch w h rows cols srcs K D KD FG S) as A. unfold agree in A.
  destruct (f_build fb cw ch) as [f|e], (build_mesh b w h srcs) as [m|e']; try contradiction; [|exact A]. split; [exact (same_same_mesh _ _ _ _ A)|]. split.
  - intros f' H. destruct (exact_splits k depth f f' K D KD H m A) as (m' & H' & R). exists m'. split; [exact H'|exact (same_same_mesh _ _ _ _ R)].
  - intros m' H. destruct (exact_splits_back k depth m m' K D KD H f A) as (f' & H' & R). exists f'. split; [exact H'|exact (same_same_mesh _ _ _ _ R)].
Qed.
Print Assumptions C49_mesh.

(** So the graph in double precision is exactly the adjacency of the cells, and a
    split of a cell below the depth never raises. *)
Theorem C49_graph : forall k depth fb b cw ch w h rows cols f f',
  0 <= k -> 0 <= depth -> k + depth <= 43 -> float_grid k fb b cw ch w h rows cols -> rows * cols < 2 ^ 52 - 2 -> admissible b w h ->
  f_build fb cw ch = Ok f -> f_splits depth f f' ->
  (~ spans_globe b -> f_graph_exact touches f') /\ (spans_globe b -> f_graph_exact touches_mod f') /\
  (forall i c, nth_error (fcells f') i = Some (Some c) -> fc_depth c < depth -> exists f2, f_split_and_replace f' i = Ok f2).
Proof.
  intros k depth fb b cw ch w h rows cols f f' K D KD FG S Ad E H. pose proof (float_grid_build k depth fb b cw ch w h rows cols [] K D KD FG S) as A. unfold agree in A. rewrite E in A.
  destruct (build_mesh b w h []) as [m|] eqn:B; [|contradiction]. destruct (exact_splits k depth f f' K D KD H m A) as (m' & H' & R). pose proof (same_same_mesh _ _ _ _ R) as SM.
  assert (reachable b w h [] m') as Re by (exists m; split; [exact B|exact (splits_by_splits _ _ _ H')]). split; [|split].
  - intros G. apply (same_graph touches f' m' touches_respectful SM). exact (reachable_exact_regional b w h [] m' Ad G Re).
  - intros G. apply (same_graph touches_mod f' m' touches_mod_respectful SM). exact (reachable_exact_global b w h [] m' Ad G Re).
  - intros i c I Dc. pose proof (exact_replace k depth f' m' i K D KD R) as X.
    assert (forall c0, nth_error (fcells f') i = Some (Some c0) -> fc_depth c0 < depth) as D' by (intros c0 I0; rewrite I in I0; injection I0 as <-; exact Dc).
    specialize (X D'). destruct R as (_ & _ & F). pose proof (Forall2_nth _ _ _ F i) as Hi. rewrite I in Hi. destruct (nth_error (cells m') i) as [[c'|]|] eqn:I'; try contradiction.
    destruct (split_never_raises b w h [] m' i c' Ad Re I') as (m2 & E2). rewrite E2 in X. destruct (f_split_and_replace f' i) as [f2|]; [|contradiction]. exists f2. reflexivity.
Qed.
Print Assumptions C49_graph.
(** Example: the Southern Ocean in cells of 5 by 2.5 degrees (k = 1) down to 42 splits. *)
Definition fx_region : fboundary := mkF (fint (-80)) (fint (-60)) (fint (-60)) (fint 30).
Definition fx_bounds : boundary := mkB (-80) (-60) (-60) 30 [].
Example C49_case : float_grid 1 fx_region fx_bounds (fint 5) (fdiv (fint 5) (fint 2)) 5 (5#2) 8 18 /\ 1 + Z.of_nat 42 <= 43.
Proof.
  split; [|reflexivity]. unfold float_grid. repeat split; try lra; try lia; try (vm_compute; reflexivity); try discriminate; try (left; reflexivity);
    first [exists (-80); split; reflexivity|exists (-60); split; reflexivity|exists 30; split; reflexivity|exists 5; split; reflexivity|exists (5#2); split; reflexivity
          |exists (-160); reflexivity|exists (-120); reflexivity|exists 60; reflexivity|exists 10; reflexivity|exists 5; reflexivity|idtac].
  all: try (eexists; split; [vm_compute; reflexivity|reflexivity]).
Qed.
Definition cell_of (l : res (list fboundary)) (i : nat) : fboundary := match l with Ok l => nth i l fx_region | Err _ => fx_region end.
Example C49_case_cells :
  let c := cell_of (f_grid fx_region (fint 5) (fdiv (fint 5) (fint 2))) 0 in let c' := cell_of (f_grid fx_region (fint 5) (fdiv (fint 5) (fint 2))) 1 in
  f_case false (cell_of (f_split c) 1) (cell_of (f_split c') 0) = code dE /\ f_case false (cell_of (f_split c) 1) c' = code dE.
Proof. split; vm_compute; reflexivity. Qed.

Definition fx_mesh : fmesh := match f_build fx_region (fint 5) (fdiv (fint 5) (fint 2)) with Ok f => f | Err _ => mkFM [] [] false end.
Definition fx_split : fmesh := match f_split_and_replace fx_mesh 20 with Ok f => f | Err _ => fx_mesh end.
Example C49_graph_case : admissible fx_bounds 5 (5#2) /\ ~ spans_globe fx_bounds /\ 8 * 18 < 2 ^ 52 - 2 /\
  f_build fx_region (fint 5) (fdiv (fint 5) (fint 2)) = Ok fx_mesh /\ List.length (fcells fx_mesh) = 144%nat /\ f_splits 42 fx_mesh fx_split /\
  get_neighbours (fng fx_split) (KI 21) (KI west) = Ok [145; 147].
Proof.
  split; [split; [split; [cbn; repeat split; lra|left; reflexivity]|]; split; [reflexivity|]; split; [reflexivity|]; intros [X _]; discriminate X|].
  split; [intros [X _]; discriminate X|]. split; [reflexivity|]. split; [vm_compute; reflexivity|]. split; [vm_compute; reflexivity|].
  split; [|vm_compute; reflexivity].
  apply (fs_more 42 fx_mesh fx_mesh fx_split 20 (mkFC (cell_of (f_grid fx_region (fint 5) (fdiv (fint 5) (fint 2))) 20) 0)); [constructor|vm_compute; reflexivity|reflexivity|vm_compute; reflexivity].
Qed.

(** A cell size that is no dyadic number breaks it.  The region from 0.5 to 0.9
    with cells 0.2 wide is accepted and has two cells, which touch; neither is a
    neighbour of the other. *)
Definition tenths (n : Z) : f64 := fdiv (fint n) (fint 10).
Definition fx_west : fboundary := mkF (fint 0) (fint 1) (tenths 5) (tenths 9).
Theorem C49_refuted : exists a b, f_validate fx_west (tenths 2) (fint 1) = Ok tt /\ f_grid fx_west (tenths 2) (fint 1) = Ok [a; b] /\
  f_case false a b = 0 /\ f_case false b a = 0 /\ flt (flong_min b) (flong_max a) = true.
Proof.
  exists (cell_of (f_grid fx_west (tenths 2) (fint 1)) 0), (cell_of (f_grid fx_west (tenths 2) (fint 1)) 1). repeat split; vm_compute; reflexivity.
Qed.
Print Assumptions C49_refuted.
(** The same for rows: latitudes from -0.5 to -0.1 in steps of 0.1. *)
Definition fx_south : fboundary := mkF (tenths (-5)) (tenths (-1)) (fint 0) (fint 1).
Theorem C49_rows_refuted : exists a b c d, f_validate fx_south (fint 1) (tenths 1) = Ok tt /\ f_grid fx_south (fint 1) (tenths 1) = Ok [a; b; c; d] /\
  f_case false a b = code dN /\ f_case false c d = 0 /\ f_case false d c = 0.
Proof.
  set (g := f_grid fx_south (fint 1) (tenths 1)). exists (cell_of g 0), (cell_of g 1), (cell_of g 2), (cell_of g 3). repeat split; vm_compute; reflexivity.
Qed.
Print Assumptions C49_rows_refuted.

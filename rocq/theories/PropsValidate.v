(** Property theorems C44 and C55: the mesh validators.  Statements only. *)
From Coq Require Import Permutation.
From Verif Require Import Base QLib Geo Graph Cell Loaders Builder Env Spec MeshSpec EnvSpec EnvQuery Validate ValidateSpec ValidateProofs.
Open Scope Z_scope.

(** A square of two cells, and a line of data points. *)
Definition vx_cell (i : Z) (x : Q) (v : Q) : ecell := mkE (mkB 0 1 x (x + 1) []) [("SIC"%string, JNum (Some v))] i.
Definition vx_cells : list ecell := [vx_cell 0 0 10; vx_cell 1 1 20].
Definition vx_whole : boundary := mkB 0 1 0 2 [].
Definition vx_point (x : Q) (v : Q) : point := mkP (1#20) x None [Some v].
Lemma vx_plane : plane_cells vx_cells.
Proof.
  split; [cbn; repeat constructor; cbn; intuition discriminate|].
  intros c [<-|[<-|[]]]; (split; [cbn; lra|left; reflexivity]).
Qed.
Lemma vx_r0 : region (e_bounds (vx_cell 0 0 10)) = Box 0 1 0 1. Proof. reflexivity. Qed.
Lemma vx_r1 : region (e_bounds (vx_cell 1 1 20)) = Box 1 2 0 1. Proof. reflexivity. Qed.
Lemma vx_tiles : env_tiles (region vx_whole) vx_cells.
Proof.
  change (region vx_whole) with (Box 0 2 0 1). split; [|split].
  - intros x y M. unfold mem in M. cbn [x0 x1 y0 y1] in M. destruct (Qlt_le_dec 1 x).
    + exists (vx_cell 1 1 20). split; [right; left; reflexivity|]. rewrite vx_r1. unfold mem. cbn [x0 x1 y0 y1]. lra.
    + exists (vx_cell 0 0 10). split; [left; reflexivity|]. rewrite vx_r0. unfold mem. cbn [x0 x1 y0 y1]. lra.
  - intros c x y [<-|[<-|[]]]; rewrite ?vx_r0, ?vx_r1; unfold mem; cbn [x0 x1 y0 y1]; lra.
  - intros c c' x y [<-|[<-|[]]] [<-|[<-|[]]]; rewrite ?vx_r0, ?vx_r1; unfold mem; cbn [x0 x1 y0 y1]; intros; first [reflexivity|exfalso; lra].
Qed.
Lemma vx_off : forall x v, (0 < x < 1 \/ 1 < x < 2)%Q -> off_edges vx_cells (vx_point x v).
Proof.
  intros x v H c [<-|[<-|[]]]; rewrite ?vx_r0, ?vx_r1; unfold closed, interior; cbn [x0 x1 y0 y1 p_long p_lat vx_point]; intros; destruct H; lra.
Qed.

(** C44.  The slice of a cell is exactly the source points of the closed rectangle. *)
Theorem C44_slice : forall src b p, plane_bounds b ->
  In p (slice_data src b) <-> In p src /\ closed (region b) (p_long p) (p_lat p).
Proof. exact slice_exact. Qed.
Print Assumptions C44_slice.
Example C44_slice_case : plane_bounds (mkB 0 1 0 1 []) /\
  slice_data [vx_point (1#2) 3; vx_point (3#2) 4; vx_point 1 5] (mkB 0 1 0 1 []) = [vx_point (1#2) 3; vx_point 1 5].
Proof. split; [split; [cbn; lra|left; reflexivity]|reflexivity]. Qed.
(** No point of the mesh is missed. *)
Theorem C44_covered : forall whole cs p src, plane_cells cs -> env_tiles whole cs -> In p src -> mem whole (p_long p) (p_lat p) ->
  exists c, In c cs /\ In p (slice_data src (e_bounds c)).
Proof.
  intros whole cs p src P T I M. destruct (slice_covers whole cs p P T M) as (c & Ic & C).
  exists c. split; [exact Ic|]. apply slice_exact; [apply P, Ic|split; assumption].
Qed.
Print Assumptions C44_covered.
Example C44_covered_case : plane_cells vx_cells /\ env_tiles (region vx_whole) vx_cells /\ mem (region vx_whole) 1 (1#20).
Proof. split; [exact vx_plane|]. split; [exact vx_tiles|]. unfold mem. cbn. lra. Qed.
(** With no source point on an edge, each point is compared exactly once, and with
    the value of the cell around it; the results are the means of these errors
    and of their squares. *)
Theorem C44_each_once_partial : forall whole cs src i name, plane_cells cs -> env_tiles whole cs -> cs <> [] ->
  (forall c, In c cs -> exists v, holds_num c name v) ->
  (forall p, In p src -> mem whole (p_long p) (p_lat p) /\ off_edges cs p) ->
  exists es ps m s, validate_scalar cs src i name = Ok (m, s) /\ mean_is es m /\ mean_is (map (option_map (fun e => e * e)%Q) es) s /\
    Permutation src ps /\
    Forall2 (fun e p => exists c v, In c cs /\ interior (region (e_bounds c)) (p_long p) (p_lat p) /\ holds_num c name v /\
                          error_is e (nth i (p_vals p) None) v) es ps.
Proof.
  intros whole cs src i name P T N HV HS. destruct (errors_once whole cs src i name P T HV HS) as (es & cell_of & E & C & Pm).
  apply Permutation_sym in Pm. assert (exists ps, es = map (fun p => err name i (cell_of p) p) ps /\ Permutation src ps) as (ps & -> & Ps).
  { destruct (Permutation_map_inv _ _ (Permutation_sym Pm)) as (ps & -> & H). exists ps. split; [reflexivity|exact H]. }
  exists (map (fun p => err name i (cell_of p) p) ps), ps. do 2 eexists. split; [|split; [apply col_mean_is|split; [apply (col_mean_is (map (option_map square) _))|split; [exact Ps|]]]].
  - unfold validate_scalar. rewrite E. destruct cs; [contradiction|reflexivity].
  - assert (forall p, In p ps -> In p src) as Sub by (intros p I; apply (Permutation_in p (Permutation_sym Ps) I)).
    clear Pm Ps E. induction ps as [|p ps IH]; [constructor|]. cbn [map]. constructor.
    + destruct (C p (Sub p (or_introl eq_refl))) as [Ic Int]. destruct (HV _ Ic) as (v & Hv).
      exists (cell_of p), v. split; [exact Ic|]. split; [exact Int|]. split; [exact Hv|]. apply err_is, Hv.
    + apply IH. intros q I. apply Sub. right. exact I.
Qed.
Print Assumptions C44_each_once_partial.
Example C44_each_once_case : plane_cells vx_cells /\ env_tiles (region vx_whole) vx_cells /\
  (forall c, In c vx_cells -> exists v, holds_num c "SIC" v) /\
  (forall p, In p [vx_point (3#2) 14; vx_point (1#2) 13] -> mem (region vx_whole) (p_long p) (p_lat p) /\ off_edges vx_cells p) /\
  scalar_errors vx_cells [vx_point (3#2) 14; vx_point (1#2) 13] 0 "SIC" = Ok [Some 3%Q; Some 6%Q].
Proof.
  split; [exact vx_plane|]. split; [exact vx_tiles|]. split; [intros c [<-|[<-|[]]]; eexists; reflexivity|].
  split; [|reflexivity]. intros p [<-|[<-|[]]]; (split; [unfold mem; cbn; lra|apply vx_off; lra]).
Qed.
(** C84.  The same for vectors: with no source point on an edge, the results are the means
    of the lengths of the difference vectors, each point's against the cell around it, and
    of their squares. *)
Theorem C84_each_once_partial : forall root whole cs src i j nx ny, plane_cells cs -> env_tiles whole cs -> cs <> [] ->
  (forall c, In c cs -> exists a b, holds_num c nx a /\ holds_num c ny b) ->
  (forall p, In p src -> mem whole (p_long p) (p_lat p) /\ off_edges cs p) ->
  exists ds ps m s, validate_vector root cs src i j nx ny = Ok (m, s) /\
    mean_is (map (option_map root) ds) m /\ mean_is (map (option_map (fun d => root d * root d)%Q) ds) s /\
    Permutation src ps /\
    Forall2 (fun d p => exists c a b, In c cs /\ interior (region (e_bounds c)) (p_long p) (p_lat p) /\ holds_num c nx a /\ holds_num c ny b /\
                          distance2_is d (nth i (p_vals p) None) (nth j (p_vals p) None) a b) ds ps.
Proof.
  intros root whole cs src i j nx ny P T N HV HS. destruct (pairs_once (verr nx ny i j) whole cs src P T HS) as (cell_of & C & Pm).
  destruct (Permutation_map_inv _ _ Pm) as (ps & E & Ps).
  exists (map (fun p => verr nx ny i j (cell_of p) p) ps), ps. do 2 eexists.
  split; [|split; [apply col_mean_is|split; [|split; [exact Ps|]]]].
  - unfold validate_vector. rewrite (vector_errors_pairs cs src i j nx ny HV), E. destruct cs; [contradiction|reflexivity].
  - assert (X : map (option_map (fun d => root d * root d)%Q) (map (fun p => verr nx ny i j (cell_of p) p) ps) =
      map (option_map square) (map (option_map root) (map (fun p => verr nx ny i j (cell_of p) p) ps))).
    { rewrite (map_map (option_map root)). apply map_ext. intros [d|]; reflexivity. }
    rewrite X. apply col_mean_is.
  - assert (forall p, In p ps -> In p src) as Sub by (intros p I; apply (Permutation_in p (Permutation_sym Ps) I)).
    clear Pm Ps E. induction ps as [|p ps IH]; [constructor|]. cbn [map]. constructor.
    + destruct (C p (Sub p (or_introl eq_refl))) as [Ic Int]. destruct (HV _ Ic) as (a & b & Ha & Hb).
      exists (cell_of p), a, b. split; [exact Ic|]. split; [exact Int|]. split; [exact Ha|]. split; [exact Hb|]. apply verr_is; assumption.
    + apply IH. intros q I. apply Sub. right. exact I.
Qed.
Print Assumptions C84_each_once_partial.
(** C84.  A point on an edge counts twice, against two vectors; a component without a name
    in some cell raises KeyError. *)
Definition vy_cells : list ecell :=
  [mkE (mkB 0 1 0 1 []) [("u"%string, JNum (Some 1%Q)); ("v"%string, JNum (Some 2%Q))] 0; mkE (mkB 0 1 1 2 []) [("u"%string, JNum (Some 4%Q)); ("v"%string, JNum (Some 6%Q))] 1].
Theorem C84_refuted : exists whole cs p, plane_cells cs /\ env_tiles whole cs /\ mem whole (p_long p) (p_lat p) /\
  (exists c a b, In c cs /\ mem (region (e_bounds c)) (p_long p) (p_lat p) /\ holds_num c "u" a /\ holds_num c "v" b /\ p_vals p = [Some a; Some b]) /\
  forall root, (root 0 == 0)%Q -> (root 25 == 5)%Q -> exists e q, validate_vector root cs [p] 0 1 "u" "v" = Ok (Some e, q) /\ (e == 5 # 2)%Q.
Proof.
  exists (region vx_whole), vy_cells, (mkP (1#20) 1 None [Some 1%Q; Some 2%Q]). split.
  { split; [cbn; repeat constructor; cbn; intuition discriminate|]. intros c [<-|[<-|[]]]; (split; [cbn; lra|left; reflexivity]). }
  split.
  { change (region vx_whole) with (Box 0 2 0 1). split; [|split].
    - intros x y M. unfold mem in M. cbn [x0 x1 y0 y1] in M. destruct (Qlt_le_dec 1 x).
      + eexists. split; [right; left; reflexivity|]. change (mem (Box 1 2 0 1) x y). unfold mem. cbn [x0 x1 y0 y1]. lra.
      + eexists. split; [left; reflexivity|]. change (mem (Box 0 1 0 1) x y). unfold mem. cbn [x0 x1 y0 y1]. lra.
    - intros c x y [<-|[<-|[]]]; [change (mem (Box 0 1 0 1) x y -> mem (Box 0 2 0 1) x y)|change (mem (Box 1 2 0 1) x y -> mem (Box 0 2 0 1) x y)]; unfold mem; cbn [x0 x1 y0 y1]; lra.
    - intros c c' x y [<-|[<-|[]]] [<-|[<-|[]]]; try (intros; reflexivity).
      + change (mem (Box 0 1 0 1) x y -> mem (Box 1 2 0 1) x y -> 0 = 1). unfold mem; cbn [x0 x1 y0 y1]. intros. exfalso. lra.
      + change (mem (Box 1 2 0 1) x y -> mem (Box 0 1 0 1) x y -> 1 = 0). unfold mem; cbn [x0 x1 y0 y1]. intros. exfalso. lra. }
  split; [unfold mem; cbn; lra|]. split.
  { eexists. exists 1%Q, 2%Q. split; [left; reflexivity|]. split; [change (mem (Box 0 1 0 1) 1 (1#20)); unfold mem; cbn; lra|]. repeat split. }
  intros root R0 R25.
  assert (E : vector_errors vy_cells [mkP (1#20) 1 None [Some 1%Q; Some 2%Q]] 0 1 "u" "v" = Ok [Some (square (1 - 1) + square (2 - 2))%Q; Some (square (1 - 4) + square (2 - 6))%Q]) by reflexivity.
  unfold validate_vector. change vy_cells with (hd (mkE (mkB 0 0 0 0 []) [] 0) vy_cells :: tl vy_cells) at 1. cbv iota beta. rewrite E. cbn [bind map option_map].
  change (square (1 - 1) + square (2 - 2))%Q with 0%Q. change (square (1 - 4) + square (2 - 6))%Q with 25%Q.
  do 2 eexists. split; [reflexivity|]. unfold qmean, qsum, qlen. cbn. rewrite R0, R25. reflexivity.
Qed.
Print Assumptions C84_refuted.
(** A point on the edge between two cells is used for both, so that a source equal
    to the cell it belongs to shows an error. *)
Theorem C44_refuted : exists whole cs p src, plane_cells cs /\ env_tiles whole cs /\ src = [p] /\ mem whole (p_long p) (p_lat p) /\
  (exists c1 c2, c1 <> c2 /\ In c1 cs /\ In c2 cs /\ In p (slice_data src (e_bounds c1)) /\ In p (slice_data src (e_bounds c2))) /\
  (exists c v, In c cs /\ mem (region (e_bounds c)) (p_long p) (p_lat p) /\ holds_num c "SIC" v /\ p_vals p = [Some v]) /\
  exists e q, validate_scalar cs src 0 "SIC" = Ok (Some e, q) /\ (0 < e)%Q.
Proof.
  exists (region vx_whole), vx_cells, (vx_point 1 10), [vx_point 1 10]. split; [exact vx_plane|]. split; [exact vx_tiles|].
  split; [reflexivity|]. split; [unfold mem; cbn; lra|]. split; [|split].
  - exists (vx_cell 0 0 10), (vx_cell 1 1 20). split; [discriminate|]. cbn. tauto.
  - exists (vx_cell 0 0 10), 10%Q. split; [cbn; tauto|]. split; [unfold mem; cbn; lra|]. split; reflexivity.
  - do 2 eexists. split; [vm_compute; reflexivity|]. vm_compute. reflexivity.
Qed.
Print Assumptions C44_refuted.
(** The slice of a cell that crosses the antimeridian is empty, whatever the source
    holds; the half of the points inside it is never compared. *)
Theorem C44_antimeridian_refuted : forall b, (long_max b < long_min b)%Q -> forall src, slice_data src b = [].
Proof. intros b H src. apply slice_crossing, H. Qed.
Print Assumptions C44_antimeridian_refuted.
Example C44_antimeridian_case : exists b p, (long_max b < long_min b)%Q /\ interior (region b) (p_long p) (p_lat p).
Proof.
  exists (mkB 0 1 170 (-170) []), (mkP (1#2) 175 None []). split; [cbn; lra|]. unfold interior. vm_compute. intuition discriminate.
Qed.

(** C55.  The sampled positions lie in the mesh, if it does not cross the
    antimeridian. *)
Theorem C55_samples : forall r s, Forall2 (fun r s => (fst r <= snd r /\ 0 <= s <= 1)%Q) r s ->
  Forall2 (fun r x => (fst r <= x <= snd r)%Q) r (map_sample r s).
Proof.
  intros r s F. induction F as [|[a b] s0 r s [H1 H2] _ IH]; [constructor|]. unfold map_sample. cbn [combine map fst snd].
  constructor; [|exact IH]. cbn [fst snd] in *. apply sample_in_range; assumption.
Qed.
Print Assumptions C55_samples.
Example C55_samples_case : Forall2 (fun r s => (fst r <= snd r /\ 0 <= s <= 1)%Q) [(0, 1); (-5, 5)]%Q [1#4; 1#2]%Q.
Proof. repeat constructor; cbn; lra. Qed.
(** In a mesh from 170 to -170 degrees a sample can be at 0. *)
Theorem C55_samples_refuted : exists b s, interior (region b) (long_min b + 1) (lat_min b + 1) /\ (0 <= s < 1)%Q /\
  exists x, map_sample [(long_min b, long_max b)] [s] = [x] /\ (long_max b < x < long_min b)%Q.
Proof.
  exists (mkB 0 2 170 (-170) []), (1#2)%Q. split; [unfold interior; vm_compute; intuition discriminate|]. split; [lra|].
  eexists. split; [reflexivity|]. cbn. lra.
Qed.
Print Assumptions C55_samples_refuted.
(** Each sample square starts at the sample, is at most 0.1 degrees wide and high
    and stays in the mesh. *)
Theorem C55_square : forall mb lat long, valid_region mb -> (lat_min mb <= lat <= lat_max mb)%Q -> (long_min mb <= long <= long_max mb)%Q ->
  exists b, sample_bounds mb lat long = Ok b /\ lat_min b = lat /\ long_min b = long /\
    (lat <= lat_max b <= lat_max mb)%Q /\ (long <= long_max b <= long_max mb)%Q /\
    (lat_max b <= lat + (1#10))%Q /\ (long_max b <= long + (1#10))%Q /\ time_range b = time_range mb.
Proof. exact sample_bounds_ok. Qed.
Print Assumptions C55_square.
Example C55_square_case : valid_region vx_whole /\ (exists b, sample_bounds vx_whole (1#2) (39#20) = Ok b /\ long_max b = 2%Q).
Proof. split; [split; [cbn; lra|left; reflexivity]|]. eexists. split; vm_compute; reflexivity. Qed.
(** With no sampled data point on an edge, the two lists of values agree in length
    and order: each data point stands against the value of the cell around it. *)
Theorem C55_aligned_partial : forall whole mb m cs lat long srcs, valid_region mb -> plane_cells cs -> env_tiles (region mb) cs ->
  (lat_min mb <= lat <= lat_max mb)%Q -> (long_min mb <= long <= long_max mb)%Q -> first_sources m = Ok srcs ->
  (forall c s, In c cs -> In s srcs -> sget (e_data c) (source_name s) <> None) ->
  exists b, sample_bounds mb lat long = Ok b /\
    let sampled := flat_map (fun s => map (pair s) (df_trim b (whole (m_loader s)))) srcs in
    ((forall s p, In (s, p) sampled -> off_edges cs p) ->
     exists vs, values_from_data whole mb m lat long = Ok (map (fun sp => nth 0 (p_vals (snd sp)) None) sampled) /\
       values_from_mesh whole mb m cs lat long = Ok vs /\
       Forall2 (fun sp v => exists c, In c cs /\ interior (region (e_bounds c)) (p_long (snd sp)) (p_lat (snd sp)) /\
                              sget (e_data c) (source_name (fst sp)) = Some v) sampled vs).
Proof. exact values_aligned. Qed.
Print Assumptions C55_aligned_partial.
Definition vx_loader : loader := mkLoader 0 ["SIC"%string] (fun _ d => d) (fun _ _ _ => HOM) (fun _ _ => Ok []).
Definition vx_source : metadata := mkMeta vx_loader [] FillParent [].
Definition vx_mesh (split : bool) : mesh :=
  mkMesh [if split then None else Some (mkCell (mkB 0 1 0 1 []) 0 0 [vx_source] None); Some (mkCell (mkB 0 1 1 2 []) 1 0 [vx_source] None)] [] false.
Definition vx_data (x : Q) : loader -> data := fun _ => [vx_point x 12; vx_point (21#20) 19].
Example C55_aligned_case : valid_region vx_whole /\ first_sources (vx_mesh false) = Ok [vx_source] /\
  (forall c s, In c vx_cells -> In s [vx_source] -> sget (e_data c) (source_name s) <> None) /\
  (exists b, sample_bounds vx_whole 0 (39#40) = Ok b /\ df_trim b (vx_data (79#80) vx_loader) = [vx_point (79#80) 12; vx_point (21#20) 19]) /\
  (forall p, In p [vx_point (79#80) 12; vx_point (21#20) 19] -> off_edges vx_cells p) /\
  values_from_data (vx_data (79#80)) vx_whole (vx_mesh false) 0 (39#40) = Ok [Some 12%Q; Some 19%Q] /\
  values_from_mesh (vx_data (79#80)) vx_whole (vx_mesh false) vx_cells 0 (39#40) = Ok [JNum (Some 10%Q); JNum (Some 20%Q)] /\
  exists q, validate_mesh (vx_data (79#80)) vx_whole (vx_mesh false) vx_cells [(0%Q, 39#40)] = Ok q /\ (q == 5#2)%Q.
Proof.
  split; [split; [cbn; lra|left; reflexivity]|]. split; [reflexivity|].
  split; [intros c s [<-|[<-|[]]] [<-|[]]; discriminate|].
  split; [eexists; split; vm_compute; reflexivity|].
  split; [intros p [<-|[<-|[]]]; apply vx_off; lra|].
  split; [vm_compute; reflexivity|]. split; [vm_compute; reflexivity|]. eexists. split; vm_compute; reflexivity.
Qed.
(** A data point on an edge is in no cell: the lists get different lengths and the
    validation fails. *)
Theorem C55_edge_refuted : exists whole mb m cs lat long, valid_region mb /\ plane_cells cs /\ env_tiles (region mb) cs /\
  (lat_min mb <= lat <= lat_max mb)%Q /\ (long_min mb <= long <= long_max mb)%Q /\
  (exists a v, values_from_data whole mb m lat long = Ok a /\ values_from_mesh whole mb m cs lat long = Ok v /\
     List.length a = 2%nat /\ List.length v = 1%nat) /\
  validate_mesh whole mb m cs [(lat, long)] = Err ValueError.
Proof.
  exists (vx_data 1), vx_whole, (vx_mesh false), vx_cells, 0%Q, (39#40)%Q.
  split; [split; [cbn; lra|left; reflexivity]|]. split; [exact vx_plane|]. split; [exact vx_tiles|]. split; [cbn; lra|]. split; [cbn; lra|].
  split; [do 2 eexists; repeat split; vm_compute; reflexivity|vm_compute; reflexivity].
Qed.
Print Assumptions C55_edge_refuted.
(** Once the mesh's first cell has been split no sample can be validated. *)
Theorem C55_split_refuted : forall whole mb m cs rest lat long more, cells m = None :: rest -> valid_region mb ->
  (lat_min mb <= lat <= lat_max mb)%Q -> (long_min mb <= long <= long_max mb)%Q ->
  validate_mesh whole mb m cs ((lat, long) :: more) = Err AttributeError.
Proof.
  intros whole mb m cs rest lat long more C V H1 H2. destruct (sample_bounds_ok mb lat long V H1 H2) as (b & E & _).
  exact (first_split_fails whole mb m cs rest lat long more b C E).
Qed.
Print Assumptions C55_split_refuted.
Example C55_split_case : exists rest, cells (vx_mesh true) = None :: rest. Proof. eexists. reflexivity. Qed.

(** Property theorems C45: raster export.  Statements only. *)
From Verif Require Import Base QLib Geo Graph Cell Builder Env Config Spec MeshSpec EnvSpec EnvQuery ParamProofs ValidateSpec Raster RasterSpec RasterProofs Floats RasterFloat.
Open Scope Z_scope.

(** A mesh of a western cell (10) and an eastern cell (20). *)
Definition rx_cell (i : Z) (x : Q) (v : Q) : ecell := mkE (mkB 0 4 x (x + 2) []) [("SIC"%string, JNum (Some v))] i.
Definition rx_mesh : emesh := mkEM (mkB 0 4 0 4 []) [rx_cell 0 0 10; rx_cell 1 2 20] [] (mkCfg (mkB 0 4 0 4 []) 2 4 0 []).
Lemma rx_plane : plane_cells (em_cells rx_mesh).
Proof.
  split; [cbn; repeat constructor; cbn; intuition discriminate|].
  intros c [<-|[<-|[]]]; (split; [cbn; lra|left; reflexivity]).
Qed.
Lemma rx_numeric : numeric (em_cells rx_mesh) "SIC".
Proof. intros c [<-|[<-|[]]]; eexists; reflexivity. Qed.

(** The geo-transform places the centre of pixel (r, c) where it belongs. *)
Theorem C45_georeference : forall b nlines ncols r c,
  let g := georeferenced (get_geo_transform (long_min b, lat_min b, long_max b, lat_max b) nlines ncols) r c in
  (fst g == centre_long b ncols c /\ snd g == centre_lat b nlines r)%Q.
Proof. exact geo_at. Qed.
Print Assumptions C45_georeference.
(** Pixel (r, c) is sample number k = r * ncols + c.  It is taken at line k / nlines
    of [ncols] lines and at column k mod nlines of [nlines] columns. *)
Theorem C45_positions : forall b nlines ncols, 0 < nlines -> 0 < ncols -> ~ (lat_min b == lat_max b)%Q -> ~ (long_min b == long_max b)%Q ->
  exists ss, generate_samples b nlines ncols = Ok ss /\ Z.of_nat (List.length ss) = nlines * ncols /\
    forall r c, is_pixel nlines ncols r c -> let k := r * ncols + c in
      exists s, at_pixel (reshape ss (Z.to_nat nlines) (Z.to_nat ncols)) r c = Some s /\
        (fst s == centre_lat b ncols (k / nlines))%Q /\ (snd s == centre_long b nlines (k mod nlines))%Q.
Proof.
  intros b nlines ncols Hl Hc N1 N2. destruct (pixel_sample b nlines ncols Hl Hc N1 N2) as (ss & E & L & H).
  exists ss. split; [exact E|]. split; [exact L|]. intros r c P k. rewrite reshape_at by exact P. rewrite (H r c P).
  eexists. split; [reflexivity|]. split; [apply sample_lat_centre|apply sample_long_centre].
Qed.
Print Assumptions C45_positions.
(** So the pixels are sampled at their own centres exactly when the image is square. *)
Theorem C45_exactly_square : forall b nlines ncols ss, 0 < nlines -> 0 < ncols -> ~ (lat_min b == lat_max b)%Q -> ~ (long_min b == long_max b)%Q ->
  generate_samples b nlines ncols = Ok ss ->
  ((forall r c, is_pixel nlines ncols r c -> exists s, at_pixel (reshape ss (Z.to_nat nlines) (Z.to_nat ncols)) r c = Some s /\
      (fst s == centre_lat b nlines r)%Q /\ (snd s == centre_long b ncols c)%Q) <-> nlines = ncols).
Proof.
  intros b nlines ncols ss Hl Hc N1 N2 G. destruct (C45_positions b nlines ncols Hl Hc N1 N2) as (ss' & E & _ & H).
  rewrite G in E. injection E as <-. split.
  - intros A. assert (is_pixel nlines ncols 0 0) as P by (unfold is_pixel; lia).
    destruct (A 0 0 P) as (s & S & X & _). destruct (H 0 0 P) as (s' & S' & X' & _). rewrite S in S'. injection S' as <-.
    apply (first_pixel b nlines ncols Hl Hc N1). rewrite <- X, X'. cbn [Z.mul Z.add]. rewrite Z.div_0_l by lia. reflexivity.
  - intros <- r c P. destruct (H r c P) as (s & S & X & Y). exists s. split; [exact S|].
    destruct P as [P1 P2]. rewrite Z.div_add_l, Z.div_small in X by lia. rewrite Z.add_comm, Z.mod_add, Z.mod_small in Y by lia.
    rewrite Z.add_0_r in X. split; assumption.
Qed.
Print Assumptions C45_exactly_square.
Example C45_positions_case : ~ (lat_min (em_bounds rx_mesh) == lat_max (em_bounds rx_mesh))%Q /\ exists ss,
  generate_samples (em_bounds rx_mesh) 2 2 = Ok ss /\ List.length ss = 4%nat.
Proof. split; [cbn; lra|]. eexists. split; vm_compute; reflexivity. Qed.
(** A square image carries at each pixel the value of the cell around the pixel's
    centre, and NaN where no cell is. *)
Theorem C45_partial : forall m name n, 0 < n -> ~ (lat_min (em_bounds m) == lat_max (em_bounds m))%Q -> ~ (long_min (em_bounds m) == long_max (em_bounds m))%Q ->
  plane_cells (em_cells m) -> numeric (em_cells m) name ->
  exists im, to_tif m name n n = Ok im /\
    forall r c, is_pixel n n r c -> exists v x y, at_pixel (im_data im) r c = Some v /\
      georeferenced (im_transform im) r c = (x, y) /\
      ((exists cl, In cl (em_cells m) /\ interior (region (e_bounds cl)) x y /\ sget (e_data cl) name = Some (JNum v)) \/
       (v = None /\ forall cl, In cl (em_cells m) -> ~ interior (region (e_bounds cl)) x y)).
Proof.
  intros m name n Hn N1 N2 P Nu. destruct (C45_positions (em_bounds m) n n Hn Hn N1 N2) as (ss & E & _ & _).
  pose proof (proj2 (C45_exactly_square (em_bounds m) n n ss Hn Hn N1 N2 E) eq_refl) as H.
  destruct (mapM_total (get_sample_value (em_cells m) name) ss) as (vs & M).
  { intros s _. destruct (sample_value (em_cells m) name s Nu P) as [(c & v & _ & _ & _ & V)|[_ V]]; eexists; exact V. }
  unfold to_tif. rewrite E. cbn [bind]. rewrite M. cbn [bind]. eexists. split; [reflexivity|]. cbn [im_data im_transform].
  intros r c Pix. destruct (H r c Pix) as (s & S & X & Y). rewrite (reshape_at ss n n r c Pix) in S. rewrite (reshape_at vs n n r c Pix).
  destruct (mapM_nth _ _ _ M _ _ S) as (v & V & Nv). exists v.
  destruct (geo_at (em_bounds m) n n r c) as [GX GY].
  destruct (georeferenced _ r c) as [x y]. cbn [fst snd] in GX, GY. exists x, y. split; [exact Nv|]. split; [reflexivity|].
  assert (forall cl, interior (region (e_bounds cl)) (snd s) (fst s) <-> interior (region (e_bounds cl)) x y) as I.
  { intros cl. unfold interior. rewrite X, Y, GX, GY. reflexivity. }
  destruct (sample_value (em_cells m) name s Nu P) as [(cl & v' & Ic & Int & D & V')|[No V']]; rewrite V in V'; injection V' as <-.
  - left. exists cl. split; [exact Ic|]. split; [apply I, Int|exact D].
  - right. split; [reflexivity|]. intros cl Icl Int. apply (No cl Icl), I, Int.
Qed.
Print Assumptions C45_partial.
Example C45_case : plane_cells (em_cells rx_mesh) /\ numeric (em_cells rx_mesh) "SIC" /\
  exists gt, to_tif rx_mesh "SIC" 2 2 = Ok (mkImage [[Some 10; Some 20]; [Some 10; Some 20]]%Q gt).
Proof. split; [exact rx_plane|]. split; [exact rx_numeric|]. eexists. vm_compute. reflexivity. Qed.
(** An image of two lines of four columns carries values of the wrong cells. *)
Theorem C45_refuted : exists m name nlines ncols r c im v x y, plane_cells (em_cells m) /\ numeric (em_cells m) name /\
  0 < nlines /\ 0 < ncols /\ is_pixel nlines ncols r c /\ to_tif m name nlines ncols = Ok im /\
  at_pixel (im_data im) r c = Some (Some v) /\ georeferenced (im_transform im) r c = (x, y) /\
  exists c1 v1 c2, In c1 (em_cells m) /\ interior (region (e_bounds c1)) x y /\ holds_num c1 name v1 /\ ~ (v == v1)%Q /\
    In c2 (em_cells m) /\ holds_num c2 name v.
Proof.
  exists rx_mesh, "SIC"%string, 2, 4, 0, 1. do 4 eexists. split; [exact rx_plane|]. split; [exact rx_numeric|].
  split; [lia|]. split; [lia|]. split; [unfold is_pixel; lia|]. split; [vm_compute; reflexivity|]. split; [vm_compute; reflexivity|].
  split; [vm_compute; reflexivity|]. exists (rx_cell 0 0 10), 10%Q, (rx_cell 1 2 20). split; [left; reflexivity|].
  split; [vm_compute; intuition reflexivity|]. split; [reflexivity|]. split; [vm_compute; discriminate|]. split; [right; left; reflexivity|reflexivity].
Qed.
Print Assumptions C45_refuted.
(** A pixel whose centre lies on the edge between two cells is NaN. *)
Theorem C45_edge_refuted : exists m name n r c im x y, plane_cells (em_cells m) /\ numeric (em_cells m) name /\
  is_pixel n n r c /\ to_tif m name n n = Ok im /\ at_pixel (im_data im) r c = Some None /\ georeferenced (im_transform im) r c = (x, y) /\
  exists cl v, In cl (em_cells m) /\ mem (region (e_bounds cl)) x y /\ holds_num cl name v.
Proof.
  exists rx_mesh, "SIC"%string, 1, 0, 0. do 3 eexists. split; [exact rx_plane|]. split; [exact rx_numeric|].
  split; [unfold is_pixel; lia|]. split; [vm_compute; reflexivity|]. split; [vm_compute; reflexivity|]. split; [vm_compute; reflexivity|].
  exists (rx_cell 0 0 10), 10%Q. split; [left; reflexivity|]. split; [vm_compute; intuition discriminate|reflexivity].
Qed.
Print Assumptions C45_edge_refuted.
(** In a mesh across the antimeridian the samples run westwards round the globe, so
    that whole columns lie outside the mesh. *)
Theorem C45_antimeridian_refuted : exists b n ss, (long_max b < long_min b)%Q /\ 0 < n /\ generate_samples b n n = Ok ss /\
  exists s, In s ss /\ ~ interior_mod (region b) (snd s) (fst s).
Proof.
  exists (mkB 0 2 170 (-170) []), 4. eexists. split; [cbn; lra|]. split; [lia|]. split; [vm_compute; reflexivity|].
  eexists. split; [left; reflexivity|]. intros (k & H & _).
  change (x0 (region (mkB 0 2 170 (-170) []))) with 170%Q in H. change (x1 (region (mkB 0 2 170 (-170) []))) with (-170 + 360)%Q in H.
  match type of H with context [(snd ?p + _)%Q] => assert (snd p == 255#2)%Q as E by reflexivity; set (x := snd p) in * end.
  clearbody x. assert (k <= 0 \/ 1 <= k) as [K|K] by lia; rewrite Zle_Qle in K.
  - change (inject_Z 0) with 0%Q in K. lra.
  - change (inject_Z 1) with 1%Q in K. lra.
Qed.
Print Assumptions C45_antimeridian_refuted.
(** A text value (the fill value 'Nan') raises TypeError. *)
Theorem C45_text_refuted : exists m name, plane_cells (em_cells m) /\
  (exists cl, em_cells m = [cl] /\ sget (e_data cl) name = Some (JText "Nan")) /\ to_tif m name 1 1 = Err TypeError.
Proof.
  exists (mkEM (mkB 0 1 0 1 []) [mkE (mkB 0 1 0 1 []) [("SIC"%string, JText "Nan")] 0] [] (mkCfg (mkB 0 1 0 1 []) 1 1 0 [])), "SIC"%string.
  split; [split; [repeat constructor; intros []|intros c [<-|[]]; split; [cbn; lra|left; reflexivity]]|].
  split; [eexists; split; reflexivity|vm_compute; reflexivity].
Qed.
Print Assumptions C45_text_refuted.
(** In double precision [arange] can produce one line and one column too many:
    a region of 30 degrees at 13 x 13 raises ValueError (at 12 x 12 it does not). *)
Theorem C45_float_refuted : exists b n, 0 < n /\
  means (f_lat_min b) (-90) /\ means (f_lat_max b) (-60) /\ means (f_long_min b) 0 /\ means (f_long_max b) 30 /\
  float_samples b n n = Err ValueError /\ float_samples b (n - 1) (n - 1) = Ok (n - 1, n - 1).
Proof.
  exists (mkFB (fint (-90)) (fint (-60)) (fint 0) (fint 30)), 13. split; [lia|].
  do 4 (split; [eexists; split; vm_compute; reflexivity|]). split; vm_compute; reflexivity.
Qed.
Print Assumptions C45_float_refuted.
(** Without parameters the export has 100 lines of 100 columns of SIC; a given
    parameter replaces the default and nothing else changes. *)
Theorem C45_params : (forall v, load_params None = v -> sget v "sampling_resolution" = Some (JArr [JInt 100; JInt 100]) /\ sget v "data_name" = Some (JStr "SIC")) /\
  forall input name, In name ["projection"; "data_name"; "sampling_resolution"; "colour_conf"]%string ->
    sget (load_params (Some (Some input))) name =
    match sget input name with Some v => Some v | None => sget default_params name end.
Proof.
  split; [intros v <-; split; reflexivity|]. intros input name H. cbn [load_params]. unfold take_param.
  assert (forall (d : sdict json) a v b, sget (sset d a v) b = if String.eqb b a then Some v else sget d b) as G by (intros; apply sget_sset).
  destruct (sget input "colour_conf") eqn:E1, (sget input "sampling_resolution") eqn:E2, (sget input "data_name") eqn:E3, (sget input "projection") eqn:E4;
    destruct H as [<-|[<-|[<-|[<-|[]]]]]; rewrite ?G, ?E1, ?E2, ?E3, ?E4; reflexivity.
Qed.
Print Assumptions C45_params.

(** Property theorems C73: look-up tables read from files.  Statements only. *)
From Verif Require Import Base QLib Geo Cell Loaders Spec Names Lut LutSpec LutProofs PropsLut LutFiles LutFilesSpec LutFilesProofs.
Open Scope Q_scope.

(** A geometry for the concrete cases: lists of rectangles, with the places off their left
    and lower edges. *)
Definition keep_box (b : box) : list box := if qltb (x0 b) (x1 b) && qltb (y0 b) (y1 b) then [b] else [].
Definition box_minus (a b : box) : list box :=
  let l := qmax2 (x0 a) (x0 b) in let r := qmin2 (x1 a) (x1 b) in
  keep_box (Box (x0 a) (qmin2 (x1 a) (x0 b)) (y0 a) (y1 a)) ++ keep_box (Box (qmax2 (x0 a) (x1 b)) (x1 a) (y0 a) (y1 a)) ++
  keep_box (Box l r (y0 a) (qmin2 (y1 a) (y0 b))) ++ keep_box (Box l r (qmax2 (y0 a) (y1 b)) (y1 a)).
Definition boxes_minus (a b : list box) : list box := fold_left (fun acc x => flat_map (fun y => box_minus y x) acc) b a.
Definition boxes : planar := {| p_geo := rects; p_union := @List.concat box; p_minus := boxes_minus |}.
Definition in_boxes (g : list box) (p : Q * Q) : Prop := exists x, In x g /\ mem x (fst p) (snd p).

Lemma keep_box_in : forall b p, in_boxes (keep_box b) p <-> mem b (fst p) (snd p).
Proof.
  intros b [x y]. unfold in_boxes, keep_box, mem. cbn. destruct (qltb_spec (x0 b) (x1 b)), (qltb_spec (y0 b) (y1 b)); cbn; (split; [intros (z & I & M)|intros M]).
  all: try (destruct I as [<-|[]]; exact M). all: try (destruct I; fail). all: try (exists b; split; [left; reflexivity|exact M]). all: exfalso; lra.
Qed.
Lemma in_boxes_app : forall a b p, in_boxes (a ++ b) p <-> in_boxes a p \/ in_boxes b p.
Proof.
  intros a b p. unfold in_boxes. split.
  - intros (x & I & M). apply in_app_iff in I as [I|I]; [left|right]; exists x; split; assumption.
  - intros [(x & I & M)|(x & I & M)]; exists x; (split; [apply in_app_iff; auto|exact M]).
Qed.
Lemma le_min : forall x u v, x <= qmin2 u v <-> x <= u /\ x <= v.
Proof. intros x u v. unfold qmin2. qsplit; split; intros; lra. Qed.
Lemma lt_max : forall x u v, qmax2 u v < x <-> u < x /\ v < x.
Proof. intros x u v. unfold qmax2. qsplit; split; intros; lra. Qed.
Lemma lt_min : forall x u v, x < qmin2 u v <-> x < u /\ x < v.
Proof. intros x u v. unfold qmin2. qsplit; split; intros; lra. Qed.
Lemma box_minus_in : forall a b p, in_boxes (box_minus a b) p <-> mem a (fst p) (snd p) /\ ~ mem b (fst p) (snd p).
Proof.
  intros a b [x y]. unfold box_minus. cbv zeta. rewrite !in_boxes_app, !keep_box_in. unfold mem. cbn [x0 x1 y0 y1 fst snd].
  rewrite !le_min, !lt_max.
  destruct (Qlt_le_dec (x0 b) x), (Qlt_le_dec (x1 b) x), (Qlt_le_dec (y0 b) y), (Qlt_le_dec (y1 b) y); intuition lra.
Qed.
Lemma mem_dec : forall b x y, mem b x y \/ ~ mem b x y.
Proof. intros b x y. unfold mem. destruct (Qlt_le_dec (x0 b) x), (Qlt_le_dec (x1 b) x), (Qlt_le_dec (y0 b) y), (Qlt_le_dec (y1 b) y); intuition lra. Qed.
Lemma flat_minus_in : forall l x p, in_boxes (flat_map (fun y => box_minus y x) l) p <-> in_boxes l p /\ ~ mem x (fst p) (snd p).
Proof.
  induction l as [|y l IH]; intros x p; cbn [flat_map].
  - split; [intros (z & [] & _)|intros ((z & [] & _) & _)].
  - rewrite in_boxes_app, box_minus_in, IH. split.
    + intros [[M N]|[(z & I & M) N]]; (split; [|exact N]); [exists y; split; [left; reflexivity|exact M]|exists z; split; [right; exact I|exact M]].
    + intros [(z & [->|I] & M) N]; [left; split; assumption|right; split; [exists z; split; assumption|exact N]].
Qed.
Lemma boxes_minus_in : forall b a p, in_boxes (boxes_minus a b) p <-> in_boxes a p /\ ~ in_boxes b p.
Proof.
  unfold boxes_minus. induction b as [|x b IH]; intros a p; cbn [fold_left].
  - split; [intros I; split; [exact I|intros (z & [] & _)]|intros [I _]; exact I].
  - rewrite IH, flat_minus_in. split.
    + intros [[I N] N']. split; [exact I|]. intros (z & [->|J] & M); [contradiction|]. apply N'. exists z. split; assumption.
    + intros [I N]. split; [split; [exact I|]|]; intros M; apply N; [exists x; split; [left; reflexivity|exact M]|]. destruct M as (z & J & M). exists z. split; [right; exact J|exact M].
Qed.
Lemma area_meet : forall a b c, In c (box_meet a b) -> 0 < area c.
Proof.
  intros a b c. unfold box_meet. cbv zeta. destruct (qltb _ _ && qltb _ _) eqn:E; [|intros []]. intros [<-|[]].
  apply andb_true_iff in E as [E1 E2]. apply qltb_true in E1. apply qltb_true in E2. unfold area. nra.
Qed.
Lemma meet_in : forall a b x y, mem a x y -> mem b x y -> exists c, In c (box_meet a b).
Proof.
  intros a b x y [A1 A2] [B1 B2]. unfold box_meet. cbv zeta. cbn [x0 x1 y0 y1].
  assert (E1 : qltb (qmax2 (x0 a) (x0 b)) (qmin2 (x1 a) (x1 b)) = true) by (apply qltb_true; rewrite lt_min, !lt_max; lra).
  assert (E2 : qltb (qmax2 (y0 a) (y0 b)) (qmin2 (y1 a) (y1 b)) = true) by (apply qltb_true; rewrite lt_min, !lt_max; lra).
  rewrite E1, E2. eexists. left. reflexivity.
Qed.
Lemma areas_pos : forall l, (forall c, In c l -> 0 < area c) -> l <> [] -> 0 < rects_area l.
Proof.
  unfold rects_area, qsum. induction l as [|c l IH]; intros H N; [contradiction|]. cbn [map fold_right]. pose proof (H c (or_introl eq_refl)) as Hc.
  destruct l as [|c' l]; [cbn [map fold_right]; lra|]. assert (0 < fold_right Qplus 0 (map area (c' :: l))) by (apply IH; [intros x I; apply H; right; exact I|discriminate]). lra.
Qed.
Lemma boxes_lawful : lawful boxes (Q * Q) in_boxes.
Proof.
  split.
  - intros g p. cbn in g. unfold in_boxes. induction g as [|b g IH]; [right; intros (z & [] & _)|].
    destruct (mem_dec b (fst p) (snd p)) as [M|M]; [left; exists b; split; [left; reflexivity|exact M]|].
    destruct IH as [(z & I & J)|N]; [left; exists z; split; [right; exact I|exact J]|]. right. intros (z & [->|I] & J); [contradiction|]. apply N. exists z. split; assumption.
  - intros l p. cbn. unfold in_boxes. split.
    + intros (x & I & M). apply in_concat in I as (g & Ig & I). exists g. split; [exact Ig|]. exists x. split; assumption.
    + intros (g & Ig & x & I & M). exists x. split; [|exact M]. apply in_concat. exists g. split; assumption.
  - intros a b p. apply boxes_minus_in.
  - intros l. assert (X : forall x, g_kind rects x <> KOther) by (intros [|? [|? ?]]; discriminate). apply X.
  - intros g p _. cbn. unfold in_boxes. split.
    + intros (x & I & M). exists [x]. split; [apply in_map_iff; exists x; split; [reflexivity|exact I]|]. exists x. split; [left; reflexivity|exact M].
    + intros (q & I & x & J & M). apply in_map_iff in I as (y & <- & I). destruct J as [<-|[]]. exists y. split; assumption.
  - intros a b p (x & Ix & Mx) (y & Iy & My). cbn. apply existsb_exists. exists x. split; [exact Ix|]. apply existsb_exists. exists y. split; [exact Iy|].
    unfold boxes_touch. unfold mem in *. rewrite !andb_true_iff, !qleb_true. lra.
  - intros l g b p Ig (x & Ix & Mx) (y & [<-|[]] & My). cbn [g_covered p_geo boxes rects g_shape].
    assert (A : 0 < rects_area [region b]) by (apply areas_pos; [intros c [<-|[]]; unfold area; unfold mem in My; nra|discriminate]).
    assert (B : 0 < rects_area (rects_meet (List.concat l) [region b])).
    { apply areas_pos.
      - intros c I. unfold rects_meet in I. apply in_flat_map in I as (u & _ & I). apply in_flat_map in I as (w & _ & I). exact (area_meet _ _ _ I).
      - destruct (meet_in x (region b) _ _ Mx My) as (c & I). intros E. assert (In c (rects_meet (List.concat l) [region b])) as X; [|rewrite E in X; destruct X].
        unfold rects_meet. apply in_flat_map. exists x. split; [apply in_concat; exists g; split; assumption|]. apply in_flat_map. exists (region b). split; [left; reflexivity|exact I]. }
    intros E. assert (0 < rects_area (rects_meet (List.concat l) [region b]) / rects_area [region b]); [|lra].
    apply Qlt_shift_div_l; [exact A|]. lra.
Qed.

(** C73.  Csv files with the columns geometry and NAME: the table holds, for each place of
    the region, the values of the polygons of the files it is in, and NaN exactly where it
    is in none. *)
Theorem C73_csv_partial : forall o P inside b files name, lawful o P inside -> in_world inside b -> (exists p, inside (g_shape o (Rect b)) p) ->
  files <> [] -> name <> "geometry"%string -> (forall f, In f files -> c_cols f = ["geometry"%string; name]) ->
  (forall r, In r (flat_map c_rows files) -> g_kind o (fst r) <> KOther) ->
  exists d, load_lut_csv o b files = Ok (name, d) /\
    forall p v, inside (g_shape o (Rect b)) p -> (given_at inside d p v <-> value_at inside (flat_map c_rows files) LNan p v).
Proof.
  intros o P inside b files name L W E N Nn H K. destruct (with_rest o P inside L b (flat_map c_rows files) LNan W E K) as (d & F & G).
  exists d. split; [|exact G]. unfold load_lut_csv. rewrite (import_csv_ok o b files name N Nn H K). cbn [bind fst snd]. rewrite F. reflexivity.
Qed.
Print Assumptions C73_csv_partial.
Definition lx_file : csv boxes := @mkCsv boxes ["geometry"; "depth"]%string [([Box 0 1 0 1; Box 2 3 0 1], LQ 5); ([Box 1 2 0 1], LQ 7)].
Definition lx_region : boundary := mkB 0 2 0 3 [].
Example C73_csv_case : lawful boxes (Q * Q) in_boxes /\ in_world (o := boxes) in_boxes lx_region /\ (exists p, in_boxes (g_shape boxes (Rect lx_region)) p) /\
  (forall r, In r (flat_map c_rows [lx_file]) -> g_kind boxes (fst r) <> KOther) /\
  exists d, load_lut_csv boxes lx_region [lx_file] = Ok ("depth"%string, d) /\
    given_at in_boxes d (1#2, 1#2) (LQ 5) /\ given_at in_boxes d (3#2, 1#2) (LQ 7) /\ given_at in_boxes d (1#2, 3#2) LNan /\ ~ given_at in_boxes d (1#2, 1#2) LNan.
Proof.
  assert (W : in_world (o := boxes) in_boxes lx_region).
  { intros [x y] (z & [<-|[]] & M). exists (region world). split; [left; reflexivity|]. cbn in M |- *. unfold mem, region in *. cbn in *. lra. }
  assert (E : exists p, in_boxes (g_shape boxes (Rect lx_region)) p).
  { exists (1, 1). exists (region lx_region). split; [left; reflexivity|]. cbn. unfold mem, region. cbn. lra. }
  assert (K : forall r, In r (flat_map c_rows [lx_file]) -> g_kind boxes (fst r) <> KOther) by (intros r [<-|[<-|[]]]; discriminate).
  split; [exact boxes_lawful|]. split; [exact W|]. split; [exact E|]. split; [exact K|].
  destruct (C73_csv_partial boxes (Q * Q) in_boxes lx_region [lx_file] "depth"%string boxes_lawful W E) as (d & L & H);
    [discriminate|discriminate|intros f [<-|[]]; reflexivity|exact K|].
  exists d. split; [exact L|].
  assert (In_region : forall x y, 0 < x <= 3 -> 0 < y <= 2 -> in_boxes (g_shape boxes (Rect lx_region)) (x, y)).
  { intros x y X Y. exists (region lx_region). split; [left; reflexivity|]. cbn. unfold mem, region. cbn. split; assumption. }
  assert (G1 : given_at in_boxes (flat_map c_rows [lx_file]) (1#2, 1#2) (LQ 5)).
  { exists [Box 0 1 0 1; Box 2 3 0 1]. split; [left; reflexivity|]. exists (Box 0 1 0 1). split; [left; reflexivity|]. unfold mem. cbn. lra. }
  split; [apply H; [apply In_region; lra|]; left; exact G1|]. split; [apply H; [apply In_region; lra|]|split; [apply H; [apply In_region; lra|]|]].
  - left. exists [Box 1 2 0 1]. split; [right; left; reflexivity|]. exists (Box 1 2 0 1). split; [left; reflexivity|]. unfold mem. cbn. lra.
  - right. split; [reflexivity|]. intros w (g & [I|[I|[]]] & x & J & M); injection I as <- <-; repeat destruct J as [<-|J]; try destruct J; unfold mem in M; cbn in M; lra.
  - intros G. apply H in G; [|apply In_region; lra]. destruct G as [(g & [I|[I|[]]] & _)|[_ N]]; [discriminate|discriminate|]. apply (N (LQ 5) G1).
Qed.
(** GeoJSON files and shapefiles with the value [v]: [v] in the polygons of the files, and
    elsewhere NaN, or for a boolean its opposite.  With true these are the exclusion zones
    of scotland_ncmpa.py. *)
Theorem C73_shapes : forall o P inside b v files, lawful o P inside -> in_world inside b -> (exists p, inside (g_shape o (Rect b)) p) ->
  files <> [] -> (forall g, In g (List.concat files) -> g_kind o g <> KOther) ->
  exists d, load_shapes o b v files = Ok d /\
    forall p w, inside (g_shape o (Rect b)) p ->
      (given_at inside d p w <->
        (w = v /\ exists g, In g (List.concat files) /\ inside g p) \/
        (w = match v with LB true => LB false | LB false => LB true | _ => LNan end /\ forall g, In g (List.concat files) -> ~ inside g p)).
Proof.
  intros o P inside b v files L W E N K.
  destruct (with_rest o P inside L b (map (fun g => (g, v)) (List.concat files)) (opposite v) W E) as (d & F & G).
  { intros r I. apply in_map_iff in I as (g & <- & I). exact (K g I). }
  exists d. split.
  - unfold load_shapes, import_shapes. destruct files as [|f files]; [contradiction|]. cbn [bind]. exact F.
  - intros p w Ib. rewrite (G p w Ib). unfold value_at, given_at.
    assert (X : match v with LB true => LB false | LB false => LB true | _ => LNan end = opposite v) by (destruct v as [|[|]|]; reflexivity). rewrite X. split.
    + intros [(g & I & J)|[-> H]].
      * apply in_map_iff in I as (g' & I & I'). injection I as -> <-. left. split; [reflexivity|]. exists g. split; assumption.
      * right. split; [reflexivity|]. intros g I J. apply (H v). exists g. split; [apply in_map_iff; exists g; split; [reflexivity|exact I]|exact J].
    + intros [[-> (g & I & J)]|[-> H]].
      * left. exists g. split; [apply in_map_iff; exists g; split; [reflexivity|exact I]|exact J].
      * right. split; [reflexivity|]. intros w (g & I & J). apply in_map_iff in I as (g' & I & I'). injection I as -> <-. exact (H g I' J).
Qed.
Print Assumptions C73_shapes.
Example C73_shapes_case : load_shapes boxes lx_region (LB true) [[[Box 0 1 0 1]]] = Ok [([Box 0 1 0 1], LB true); ([Box (-180) 0 (-90) 90], LB false); ([Box 1 180 (-90) 90], LB false); ([Box 0 1 (-90) 0], LB false); ([Box 0 1 1 90], LB false)].
Proof. vm_compute. reflexivity. Qed.
(** MIN and MAX of a cell: NaN if no polygon meets it or one without a value does; else the
    least or greatest of the values of the polygons that meet it. *)
Theorem C73_extremes : forall (o : planar) max c (d : list (geom o * lval)), let met v := exists g, In (g, v) d /\ g_intersects o g (g_shape o (Rect c)) = true in
  (extreme_val o max c d = LNan <-> (forall v, ~ met v) \/ met LNan) /\
  (extreme_val o max c d <> LNan -> met (extreme_val o max c d) /\
    forall v, met v -> if max then lval_num v <= lval_num (extreme_val o max c d) else lval_num (extreme_val o max c d) <= lval_num v).
Proof.
  intros o max c d met. assert (M : forall v, met v <-> In v (map snd (val_trim o c d))).
  { intros v. unfold met, val_trim. rewrite in_map_iff. split.
    - intros (g & I & J). exists (g, v). split; [reflexivity|]. apply filter_In. split; assumption.
    - intros ([g w] & <- & I). apply filter_In in I as [I J]. exists g. split; assumption. }
  destruct (extreme_spec o max c d) as [E1 E2]. split.
  - rewrite E1, M. split; (intros [H|H]; [left|right; exact H]); [intros v I; apply M in I; rewrite H in I; destruct I|].
    destruct (map snd (val_trim o c d)) as [|v l]; [reflexivity|]. exfalso. apply (H v), M. left. reflexivity.
  - intros N. destruct (E2 N) as [I H]. split; [apply M, I|]. intros v J. apply H, M, J.
Qed.
Print Assumptions C73_extremes.
(** So a cell that lies in a polygon and touches its edge has no value, nor a mean. *)
Theorem C73_edge_refuted : exists d, load_lut_csv boxes lx_region [lx_file] = Ok ("depth"%string, d) /\
  let c := mkB (1#2) 1 (1#4) (3#4) [] in (forall x y, mem (region c) x y -> mem (Box 0 1 0 1) x y) /\
  (forall x y v, mem (region c) x y -> (given_at in_boxes d (x, y) v <-> v = LQ 5)) /\
  extreme_val boxes false c d = LNan /\ extreme_val boxes true c d = LNan /\ mean_val boxes c d = Ok LNan.
Proof.
  eexists. split; [vm_compute; reflexivity|]. cbv zeta. split; [intros x y; unfold mem, region; cbn; lra|]. split; [|repeat split; vm_compute; reflexivity].
  intros x y v M. unfold mem, region in M. cbn in M. split.
  - intros (g & I & z & J & N). cbn in I.
    repeat (destruct I as [I|I]; [injection I as <- <-; destruct J as [<-|[]]; unfold mem in N; cbn in N; first [reflexivity|exfalso; lra]|]). destruct I.
  - intros ->. eexists. split; [left; reflexivity|]. eexists. split; [left; reflexivity|]. unfold mem. cbn. lra.
Qed.
Print Assumptions C73_edge_refuted.
(** The mean counts polygons, not areas: a cell of which an exclusion zone covers one part
    in a hundred is one half zone. *)
Theorem C73_zone_refuted : let zone := [Box 0 1 (-90) 90] in let c := mkB 0 1 (99#100) (199#100) [] in
  exists d q, load_shapes boxes lx_region (LB true) [[zone]] = Ok d /\ weight boxes c zone == 1#100 /\ mean_val boxes c d = Ok (LQ q) /\ q == 1#2.
Proof. eexists. eexists. split; [vm_compute; reflexivity|]. split; [vm_compute; reflexivity|]. split; vm_compute; reflexivity. Qed.
Print Assumptions C73_zone_refuted.
(** Files with the geometry in the second column are not read. *)
Theorem C73_order_refuted : forall (o : planar) b (files : list (csv o)) name, files <> [] -> name <> "geometry"%string -> (forall f, In f files -> c_cols f = [name; "geometry"%string]) ->
  (forall r, In r (flat_map c_rows files) -> g_kind o (fst r) <> KOther) -> load_lut_csv o b files = Err TypeError.
Proof.
  intros o b files name N Nn H K. unfold load_lut_csv, import_lut_csv. rewrite (concat_cols_two o files name "geometry"%string Nn N H).
  destruct files as [|f files]; [contradiction|]. rewrite (polys_true o _ K). cbn [existsb]. apply String.eqb_neq in Nn. rewrite Nn.
  rewrite String.eqb_refl, orb_true_r. reflexivity.
Qed.
Print Assumptions C73_order_refuted.
(** Nor are files with different value columns. *)
Theorem C73_columns_refuted : forall (o : planar) b r1 r2 n1 n2, n1 <> n2 -> n1 <> "geometry"%string -> n2 <> "geometry"%string ->
  load_lut_csv o b [mkCsv ["geometry"%string; n1] r1; mkCsv ["geometry"%string; n2] r2] = Err AssertionError.
Proof.
  intros o b r1 r2 n1 n2 N N1 N2. unfold load_lut_csv, import_lut_csv.
  assert (C : concat_cols o [mkCsv ["geometry"%string; n1] r1; mkCsv ["geometry"%string; n2] r2] = ["geometry"%string; n1; n2]).
  { unfold concat_cols. cbn [fold_left c_cols filter existsb negb app]. rewrite String.eqb_refl.
    assert (E1 : String.eqb n2 "geometry" = false) by (apply String.eqb_neq; exact N2). assert (E2 : String.eqb n2 n1 = false) by (apply String.eqb_neq; intros X; apply N; symmetry; exact X).
    rewrite E1, E2. reflexivity. }
  rewrite C. cbn [existsb]. rewrite String.eqb_refl. cbn [orb negb]. destruct (forallb _ _); reflexivity.
Qed.
Print Assumptions C73_columns_refuted.
(** Rejected with ValueError: no files; geometries in the region that are no polygons;
    tables that cover nothing of it. *)
Lemma mapM_value {A B} (f : A -> res B) l : (forall a e, In a l -> f a = Err e -> e = ValueError) -> forall e, mapM f l = Err e -> e = ValueError.
Proof.
  induction l as [|a l IH]; intros H e E; cbn in E; [discriminate|]. destruct (f a) as [b|e'] eqn:F; cbn [bind] in E.
  - destruct (mapM f l) as [bs|e''] eqn:M; cbn [bind] in E; [discriminate|]. injection E as <-. apply IH; [|reflexivity]. intros a' e0 I. apply H. right. exact I.
  - injection E as <-. apply (H a e'); [left; reflexivity|exact F].
Qed.
Lemma verify_value : forall (o : planar) rows e, verify_labelled o rows = Err e -> e = ValueError.
Proof.
  intros o rows e E. unfold verify_labelled in E. destruct rows as [|r rows]; [injection E as <-; reflexivity|].
  destruct (mapM (verify_one o (r :: rows)) (r :: rows)) as [bs|e'] eqn:M; [discriminate|]. cbn [bind] in E. injection E as <-. refine (mapM_value _ _ _ _ M).
  intros a e0 _ X. unfold verify_one in X. destruct (g_kind o (lb_geom a)); [discriminate| |injection X as <-; reflexivity]. destruct (Nat.eqb _ _); [discriminate|injection X as <-; reflexivity].
Qed.
Lemma mapM_ok_in {A B} (f : A -> res B) : forall l bs, mapM f l = Ok bs -> forall a, In a l -> exists b, f a = Ok b.
Proof.
  induction l as [|x l IH]; intros bs E a I; [destruct I|]. cbn in E. destruct (f x) as [b|] eqn:F; [|discriminate]. cbn [bind] in E.
  destruct (mapM f l) as [bs'|] eqn:M; [|discriminate]. destruct I as [<-|I]; [exists b; exact F|exact (IH bs' eq_refl a I)].
Qed.
Theorem C73_rejected : forall (o : planar) b v,
  (load_shapes o b v [] = Err ValueError /\ load_lut_csv o b [] = Err ValueError) /\
  (forall files g, In g (List.concat files) -> g_kind o g = KOther -> g_intersects o g (g_shape o (Rect b)) = true -> load_shapes o b v files = Err ValueError) /\
  ((forall l, g_covered o l (g_shape o (Rect b)) == 0) -> forall files, load_shapes o b v files = Err ValueError).
Proof.
  intros o b v. split; [split; reflexivity|]. split.
  - intros files g I K J. unfold load_shapes, import_shapes. destruct files as [|f files]; [destruct I|]. set (fs := f :: files) in *. clearbody fs. cbn [bind].
    set (rows := lab_trim o b _). assert (exists r, In r rows /\ lb_geom r = g) as (r & Ir & Eg).
    { destruct (proj2 (label_in o (map (fun g => (g, v)) (List.concat fs) ++ [(undefined o (map (fun g => (g, v)) (List.concat fs)), opposite v)])%list g v)) as (r & Ir & Eg & _).
      - apply in_app_iff. left. apply in_map_iff. exists g. split; [reflexivity|exact I].
      - exists r. split; [|exact Eg]. apply filter_In. split; [exact Ir|]. rewrite Eg. exact J. }
    clearbody rows. unfold finish. destruct (verify_labelled o rows) as [d|e] eqn:V; cbn [bind]; [|rewrite (verify_value o rows e V); reflexivity]. exfalso.
    unfold verify_labelled in V. destruct rows as [|r0 rows]; [destruct Ir|]. destruct (mapM _ _) as [bs|] eqn:M; [|discriminate].
    destruct (mapM_ok_in _ _ _ M r Ir) as (x & X). unfold verify_one in X. rewrite Eg, K in X. discriminate.
  - intros Z files. unfold load_shapes, import_shapes. destruct files as [|f files]; [reflexivity|]. cbn [bind]. set (rows := lab_trim o b _). clearbody rows. unfold finish.
    destruct (verify_labelled o rows) as [d|e] eqn:V; cbn [bind]; [|rewrite (verify_value o rows e V); reflexivity].
    destruct (qeqb_spec (lut_coverage o b (map fst d)) 0) as [_|N]; [reflexivity|]. exfalso. apply N. unfold lut_coverage. destruct (map fst d); [reflexivity|apply Z].
Qed.
Print Assumptions C73_rejected.

(** Property theorem C86: how a cell is written in the mesh file. *)
From Coq Require Import String.
From Verif Require Import Base Geo Graph Cell Builder Env EnvSpec QLib Dict EnvInv EnvJson EnvQuery.
Open Scope Q_scope.

(** The centre and the half sizes (cx, cy, dcx, dcy) describe the bounds: [long] and [lat]
    from the west and the south edge to the east and the north edge, eastwards. *)
Definition describes (cx cy dcx dcy : Q) (b : boundary) : Prop :=
  0 < dcx /\ 0 < dcy /\ -180 < cx <= 180 /\
  cy - dcy == lat_min b /\ cy + dcy == lat_max b /\
  (long_min b < long_max b -> cx - dcx == long_min b /\ cx + dcx == long_max b) /\
  (long_max b <= long_min b ->
     (cx - dcx == long_min b /\ cx + dcx == long_max b + 360) \/ (cx - dcx == long_min b - 360 /\ cx + dcx == long_max b)).

(** C86.  The entry of a cell gives its id, its centre and half sizes, and its data as they are. *)
Theorem C86_entry : forall c, drawable (e_bounds c) -> plain_data (e_data c) ->
  exists cx cy dcx dcy, describes cx cy dcx dcy (e_bounds c) /\
    sget (cell_to_json c) "cx" = Some (JNum (Some cx)) /\ sget (cell_to_json c) "cy" = Some (JNum (Some cy)) /\
    sget (cell_to_json c) "dcx" = Some (JNum (Some dcx)) /\ sget (cell_to_json c) "dcy" = Some (JNum (Some dcy)) /\
    sget (cell_to_json c) "id" = Some (JId (e_id c)) /\
    (forall n v, sget (e_data c) n = Some v -> sget (cell_to_json c) n = Some v) /\
    (contains_point c cy cx = true <-> cx < 180).
Proof.
  intros c D P. exists (getcx (e_bounds c)), (getcy (e_bounds c)), (getdcx (e_bounds c)), (getdcy (e_bounds c)).
  rewrite cell_json_eq by exact P. split; [|split; [|split; [|split; [|split; [|split; [|split]]]]]].
  - unfold drawable in D. unfold describes, getcx, getcy, getdcx, getdcy, get_height, get_width, Qdiv. change (/ 2) with (1#2).
    destruct (qltb_spec (long_min (e_bounds c)) (long_max (e_bounds c))) as [L|L]; cbv zeta;
      (match goal with |- context [qltb 180 ?x] => destruct (qltb_spec 180 x) as [G|G] end); repeat split; try lra; try (intros; lra);
      intros; try (left; split; lra); try (right; split; lra).
  - reflexivity.
  - reflexivity.
  - reflexivity.
  - reflexivity.
  - rewrite sget_app. cbn [sget String.eqb Ascii.eqb Bool.eqb]. rewrite sget_app.
    destruct (sget (e_data c) "id") as [v|] eqn:E; [|reflexivity]. exfalso. destruct P as [_ P]. apply (P "id"%string); [|cbn; tauto].
    destruct (in_dec String.string_dec "id"%string (map fst (e_data c))) as [I|I]; [exact I|]. rewrite (sget_none _ _ I) in E. discriminate E.
  - intros n v E. assert (In n (map fst (e_data c))) as I.
    { destruct (in_dec String.string_dec n (map fst (e_data c))) as [I|I]; [exact I|]. rewrite (sget_none _ _ I) in E. discriminate E. }
    destruct P as [_ P]. specialize (P n I). rewrite sget_app, sget_none by (cbn in *; tauto). rewrite sget_app, E. reflexivity.
  - unfold drawable in D. unfold contains_point, to_polygon, getcx, getcy, get_height, get_width, Qdiv. change (/ 2) with (1#2).
    destruct (e_bounds c) as [la lb oa ob t]. cbn [lat_min lat_max long_min long_max] in *.
    destruct (qltb_spec oa ob) as [L|L]; cbv zeta.
    + destruct (qltb_spec 180 (oa + (ob - oa) * (1#2))) as [G|G]; [exfalso; lra|]. cbn [polygon_contains].
      rewrite rect_contains by lra. split; intros; [|repeat split]; lra.
    + destruct (qeqb_spec oa 180) as [G|G]; [exfalso; lra|]. destruct (qeqb_spec ob (-180)) as [G'|G']; [exfalso; lra|].
      cbn [polygon_contains existsb]. rewrite !orb_true_iff.
      match goal with |- context [qltb 180 ?x] => destruct (qltb_spec 180 x) as [H|H] end.
      * rewrite !rect_contains by lra. split; [intros; lra|]. intros _. right. left. repeat split; lra.
      * rewrite !rect_contains by lra. split; [intros [X|[X|X]]; try lra; discriminate X|]. intros X. left. repeat split; lra.
Qed.
Print Assumptions C86_entry.
Example C86_case : exists c, drawable (e_bounds c) /\ plain_data (e_data c) /\ sget (cell_to_json c) "cx" = Some (JNum (Some (-(358#2)))).
Proof. exists (mkE (mkB 0 1 179 (-177) []) [("SIC"%string, JNum None)] 0). split; [unfold drawable; cbn; lra|]. split; [|vm_compute; reflexivity].
  split; [repeat constructor; intros []|]. intros n [<-|[]]. cbn. intuition discriminate.
Qed.
(** C86.  Findings: the centre of a cell halfway across the antimeridian is in no part of the
    cell's own polygon; a cell between a longitude and itself is as wide as the globe; and
    data called cx replace the centre. *)
Theorem C86_refuted :
  (exists c, drawable (e_bounds c) /\ plain_data (e_data c) /\ contains_point c (getcy (e_bounds c)) (getcx (e_bounds c)) = false) /\
  (exists c w, long_min (e_bounds c) = long_max (e_bounds c) /\ sget (cell_to_json c) "dcx" = Some (JNum (Some w)) /\ w == 180) /\
  (forall b id v, sget (cell_to_json (mkE b [("cx"%string, v)] id)) "cx" = Some v).
Proof.
  split; [|split].
  - exists (mkE (mkB 0 1 175 (-175) []) [] 0). split; [unfold drawable; cbn; lra|]. split; [|reflexivity]. split; [constructor|]. intros n [].
  - exists (mkE (mkB 0 1 0 0 []) [] 0). eexists. split; [reflexivity|]. split; reflexivity.
  - reflexivity.
Qed.
Print Assumptions C86_refuted.

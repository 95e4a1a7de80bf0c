(** Proofs about sources of all kinds, from their files to the mesh (C91). *)
From Verif Require Import Base Geo Graph Cell Loaders AddLoader VecLoader Builder Env Spec MeshSpec EnvSpec DataSpec QLib ConstructSpec PyStr Dates DateSpec Config ConfigSpec Params ParamSpec ParamProofs Names Reproject ReprojectSpec Pipeline PipeSpec ConfigProofs PipeProofs
  Sources SourcesSpec SourcesProofs VecHomSpec MixSpec MixProofs VecSources VecSourcesSpec VecSourcesProofs
  Lut LutSpec LutFiles LutFilesSpec LutFilesProofs PropsLut PropsLutFiles LutSources TableSpec TableChain TableProofs TableFiles PropsTable AllSources ShapeSources ShapeSourcesSpec ShapeSourcesProofs WholeSpec.
Open Scope string_scope.
Open Scope Z_scope.

(** ** Sources that agree but for data outside the region *)
Section Agree.
Variable o : planar.
Variable edge : geom o -> geom o -> bool.
Variable sq : Q -> Q.
Variable b : boundary.
Definition oagree (s t : origin o) : Prop :=
  match s, t with Point s, Point t => sagree b s t | Table u, Table w => u = w | _, _ => False end.
Lemma oagree_sym s t : oagree s t -> oagree t s.
Proof. destruct s, t; cbn; try tauto; [apply sagree_sym|auto]. Qed.
Lemma oagree_points ss ts : Forall2 oagree ss ts -> Forall2 (sagree b) (points o ss) (points o ts).
Proof.
  intros F. induction F as [|s t ss ts A F IH]; [constructor|]. unfold points in *. cbn [flat_map]. destruct s, t; cbn in A; try contradiction; cbn [app]; [constructor; assumption|exact IH].
Qed.
Lemma oagree_vector ss ts v : Forall2 oagree ss ts -> In (Point (Vector v)) ss -> exists w, In (Point (Vector w)) ts /\ vagree b v w.
Proof. intros F I. destruct (Forall2_in_l _ _ _ _ F I) as ([[g|w]|w] & J & A); cbn in A; try contradiction. eauto. Qed.
Lemma oagree_called n s t : oagree s t -> called o n s = called o n t.
Proof. destruct s as [[f|v]|u], t as [[g|w]|x]; cbn; try contradiction; auto; [intros (-> & _); reflexivity|intros ->; reflexivity]. Qed.
Lemma oagree_single s t l v : oagree s t -> (forall a, In a l -> inside_region b a) -> single_filled o sq s l v -> single_filled o sq t l v.
Proof. destruct s as [[f|u]|u], t as [[g|w]|w]; cbn; try contradiction; [|intros -> _; auto]. intros A I. eapply agree_filled; eauto. Qed.
Lemma oagree_stands ss ts l n j : Forall2 oagree ss ts -> (forall a, In a l -> inside_region b a) -> stands o sq ss l n j -> stands o sq ts l n j.
Proof.
  intros F I [(v & i & q & Iv & N & C & E)|(No & vs & W & E)].
  - left. destruct (oagree_vector ss ts v F Iv) as (w & Iw & A). exists w, i, q. split; [exact Iw|]. split; [destruct A as (<- & _); exact N|]. split; [eapply vagree_component; eauto|exact E].
  - right. split.
    + intros w Iw. destruct (oagree_vector ts ss w (Forall2_sym _ _ _ _ oagree_sym F) Iw) as (v & Iv & (A & _)). rewrite A. apply No, Iv.
    + exists vs. split; [|exact E]. clear E No. revert vs W. induction F as [|s t ss ts A F IH]; cbn [filter]; intros vs W; [exact W|].
      rewrite <- (oagree_called n s t A). destruct (called o n s); [|apply IH, W]. inversion W; subst. constructor; [eapply oagree_single; eauto|apply IH; assumption].
Qed.
Lemma oagree_says ss ts a h : Forall2 oagree ss ts -> inside_region b a -> origin_says o edge ss a h -> origin_says o edge ts a h.
Proof.
  intros F I [H|(t & c & met & It & Ic & S & An)].
  - left. eapply sagree_says; [apply oagree_points; exact F|exact I|exact H].
  - right. destruct (Forall2_in_l _ _ _ _ F It) as ([g|w] & J & A); cbn in A; [contradiction|]. subst w. exists t, c, met. auto.
Qed.
Lemma oagree_should ss ts a : Forall2 oagree ss ts -> inside_region b a -> (should_split o edge ss a <-> should_split o edge ts a).
Proof.
  intros F I. assert (F' := Forall2_sym _ _ _ _ oagree_sym F). unfold should_split.
  assert (X : forall h, origin_says o edge ss a h <-> origin_says o edge ts a h) by (intros h; split; eapply oagree_says; eauto). rewrite !X. reflexivity.
Qed.
Lemma oagree_offered ss ts cw ch depth c : (long_min b < long_max b)%Q -> (0 < cw)%Q -> (0 < ch)%Q -> Forall2 oagree ss ts ->
  as_offered o edge sq ss b cw ch depth c -> as_offered o edge sq ts b cw ch depth c.
Proof.
  intros L W H A (l & N & Le & S & NS & V). exists l.
  assert (I : forall a, In a (e_bounds c :: l) -> inside_region b a) by (intros a Ia; apply (nested_inside b cw ch _ L W H N a Ia)).
  split; [exact N|]. split; [exact Le|]. split; [|split].
  - intros b' Ib. destruct (S b' Ib) as (n & O). exists n. apply (oagree_should _ _ b' (Forall2_firstn _ n _ _ A)); [apply I; right; exact Ib|exact O].
  - intros D O. apply (NS D). apply (oagree_should _ _ (e_bounds c) A); [apply I; left; reflexivity|exact O].
  - intros n. eapply oagree_stands; eauto.
Qed.
(** Names and kinds. *)
Definition oalike (s t : origin o) : Prop :=
  match s, t with Point s, Point t => alike s t | Table u, Table w => t_name u = t_name w | _, _ => False end.
Lemma oalike_labels s t : oalike s t -> labels o s = labels o t.
Proof. destruct s, t; cbn; try contradiction; [apply alike_names|intros ->; reflexivity]. Qed.
Lemma oalike_sym s t : oalike s t -> oalike t s.
Proof. destruct s, t; cbn; try tauto; [apply alike_sym|auto]. Qed.
Lemma oagree_alike s t : oagree s t -> oalike s t.
Proof. destruct s, t; cbn; try tauto; [apply sagree_alike|intros ->; reflexivity]. Qed.
Lemma oalike_vector s w : oalike s (Point (Vector w)) -> exists v, s = Point (Vector v) /\ v_names v = v_names w.
Proof. destruct s as [[f|v]|u]; cbn; try contradiction. eauto. Qed.
Lemma oalike_apart ss ts : Forall2 oalike ss ts -> labels_apart o ss -> labels_apart o ts.
Proof.
  intros F (A1 & A2 & A3).
  assert (Nt : forall i t, nth_error ts i = Some t -> exists s, nth_error ss i = Some s /\ oalike s t).
  { clear - F. induction F as [|s t ss ts A F IH]; intros [|i] x E; cbn in E; try discriminate; [injection E as <-; exists s; auto|apply IH, E]. }
  split; [|split].
  - intros t n I H. destruct (Forall2_in_r _ _ _ _ F I) as (s & Is & A). apply (A1 s n Is). rewrite (oalike_labels _ _ A). exact H.
  - intros w I. destruct (Forall2_in_r _ _ _ _ F I) as (s & Is & A). destruct (oalike_vector _ _ A) as (v & -> & <-). apply A2, Is.
  - intros i j w t n Ne Hi Hj H. destruct (Nt _ _ Hi) as (s & Hs & A). destruct (oalike_vector _ _ A) as (v & -> & E). destruct (Nt _ _ Hj) as (u & Hu & B).
    rewrite <- (oalike_labels _ _ B). rewrite <- E in H. apply (A3 i j v u n Ne Hs Hu H).
Qed.
End Agree.

(** ** Parameters of tables *)
Lemma translated glob p files : dict_ok p -> lists_files glob p files ->
  exists q, translate_file_input glob p = Ok q /\ sget q "files" = Some (JArr (map JStr files)) /\ forall k, ~ In k ["file"; "folder"; "files"] -> sget q k = sget p k.
Proof.
  intros D Lf. assert (T : exists q, translate_file_input glob p = Ok q).
  { unfold lists_files in Lf. unfold translate_file_input. destruct (sget p "file"); [eauto|]. destruct (sget p "folder"); [|eauto]. destruct Lf as (s & dir & -> & _). eauto. }
  destruct T as (q & T). exists q. split; [exact T|]. destruct (translate_spec glob p q D T) as (U & _ & F). split; [|exact U].
  unfold lists_files in Lf. destruct (sget p "file") as [v|].
  - destruct Lf as (g & -> & ->). apply F.
  - destruct (sget p "folder") as [v|].
    + destruct Lf as (s & dir & -> & -> & J). destruct F as (s' & [= <-] & F & _). rewrite (join_slash_spec s dir J) in F. exact F.
    + subst q. exact Lf.
Qed.
Definition kept_keys : list string := ["data_name"; "value"; "aggregate_type"].
Lemma lut_ready glob nm p min_dp name cls req q : same_name nm name -> lower name = name -> In (name, (cls, req)) requirements ->
  In cls table_classes -> translate_file_input glob p = Ok q -> (forall r, In r req -> sget q r <> None) ->
  exists p', given_to glob (nm, p) min_dp cls p' /\ sget p' "files" = sget q "files" /\ sget p' "value" = sget q "value" /\
    sget p' "data_name" = match sget q "data_name" with Some v => Some v | None => Some JNull end /\
    sget p' "aggregate_type" = match sget q "aggregate_type" with Some v => Some v | None => Some (JStr "MEAN") end.
Proof.
  intros Sn Ln Rq Tc T Nr. destruct (factory_spec glob nm p min_dp q T) as (F & _). destruct (F cls req) as (p1 & E & N1 & N2 & O); [rewrite (lower_same_name _ _ Sn), Ln; exact Rq|exact Nr|].
  assert (D : exists p', add_default_params cls p1 = Ok p' /\ forall k, sget p' k =
     match sget p1 k with Some v => Some v | None => sget [("dataloader_name", JStr cls); ("data_name", JNull); ("aggregate_type", JStr "MEAN"); ("data_name", JStr "dummy_data")] k end \/
     sget p' k = match sget p1 k with Some v => Some v | None => sget [("dataloader_name", JStr cls); ("data_name", JNull); ("aggregate_type", JStr "MEAN")] k end).
  { clear - Tc. cbn in Tc. repeat (destruct Tc as [<-|Tc]; [eexists; (split; [reflexivity|]); intros k;
      first [right; rewrite <- sget_fold; reflexivity|left; rewrite <- sget_fold; reflexivity]|]). destruct Tc. }
  destruct D as (p' & Ed & D). exists p'. split; [exists p1; split; assumption|].
  rewrite <- !O by discriminate.
  repeat split; [destruct (D "files") as [->| ->]|destruct (D "value") as [->| ->]|destruct (D "data_name") as [->| ->]|destruct (D "aggregate_type") as [->| ->]];
    (match goal with |- context [sget p1 ?k] => destruct (sget p1 k); reflexivity end).
Qed.

(** ** Tables from their files *)
Section Tables.
Variable o : planar.
Variable edge : geom o -> geom o -> bool.
Variables sq dsin dcos : Q -> Q.
Variable P : Type.
Variable inside : geom o -> P -> Prop.
Hypothesis Law : lawful o P inside.
Hypothesis Rects : rectangles o inside.
Variable proj : string -> string -> Q -> Q -> Q * Q.
Variable glob : string -> list string.
Variable read_csv : string -> res dframe.
Variable open_nc : string -> list string -> res (list string * xrds).
Variable read_table : string -> res (csv o).
Variable read_shapes : string -> res (list (geom o)).
Variable b : boundary.
Hypothesis World : in_world inside b.
Hypothesis Plain : within b b.
Notation construct := (construct_all o edge sq dsin dcos proj read_csv open_nc read_table read_shapes).
Notation describes_origin' := (describes_origin o P inside glob read_table read_shapes read_csv open_nc sq dsin dcos b).

(** A table made is offered. *)
Lemma made_offered min_dp k src t cls p' want : table_settled o (snd src) t -> In cls table_classes -> given_to glob src min_dp cls p' ->
  made o edge sq P inside read_table read_shapes k cls p' b (t_name t) (t_agg t) want ->
  exists rows, offers o edge sq glob construct b min_dp k src (Table (mkTFeed (t_name t) (t_agg t) (t_conds t) (t_fill t) rows)) /\
    forall x v, inside (g_shape o (Rect b)) x -> (given_at inside rows x v <-> want x v).
Proof.
  intros [D A K C F] Tc (p1 & E1 & E2) (rows & M & W & G). exists rows. split; [|exact G]. cbn [offers t_agg t_conds t_fill t_name t_rows].
  split; [|auto]. exists cls, p1, p'. split; [exact E1|]. split; [exact E2|]. split; [|exact Tc].
  unfold construct_all. rewrite (is_table cls Tc). apply M.
Qed.
Lemma agg_read p p' (t : tfeed o) q : text_or p "aggregate_type" "MEAN" (t_agg t) -> sget q "aggregate_type" = sget p "aggregate_type" ->
  sget p' "aggregate_type" = match sget q "aggregate_type" with Some v => Some v | None => Some (JStr "MEAN") end -> sget p' "aggregate_type" = Some (JStr (t_agg t)).
Proof. unfold text_or. intros A -> ->. destruct (sget p "aggregate_type"); subst; congruence. Qed.
Lemma name_read p p' q name : goes_by p name -> sget q "data_name" = sget p "data_name" ->
  sget p' "data_name" = match sget q "data_name" with Some v => Some v | None => Some JNull end -> sget p' "data_name" = Some JNull \/ sget p' "data_name" = Some (JStr name).
Proof. intros [E|[E|E]] -> ->; rewrite E; auto. Qed.
Lemma wanted_ext (want want' : P -> lval -> Prop) rows : (forall x v, want x v <-> want' x v) -> (forall x v, inside (g_shape o (Rect b)) x -> (given_at inside rows x v <-> want x v)) ->
  forall x v, inside (g_shape o (Rect b)) x -> (given_at inside rows x v <-> want' x v).
Proof. intros E H x v I. rewrite <- E. apply H, I. Qed.
Lemma zoned_value v (shapes : list (geom o)) x w : zoned inside v shapes x w <-> value_at inside (map (fun g => (g, v)) shapes) (otherwise v) x w.
Proof.
  unfold zoned, value_at, given_at, otherwise. split.
  - intros [(-> & g & I & J)|(-> & H)]; [left; exists g; split; [apply in_map_iff; eauto|exact J]|]. right. split; [reflexivity|].
    intros u (g & I & J). apply in_map_iff in I as (g' & E & I). injection E as -> <-. exact (H g I J).
  - intros [(g & I & J)|(-> & H)].
    + apply in_map_iff in I as (g' & E & I). injection E as -> <-. left. eauto.
    + right. split; [reflexivity|]. intros g I J. apply (H v). exists g. split; [apply in_map_iff; eauto|exact J].
Qed.
Ltac keys := cbn; intuition discriminate.
Lemma table_supplied min_dp k src t : describes_origin' min_dp src (Table t) ->
  exists t', offers o edge sq glob construct b min_dp k src (Table t') /\ describes_origin' min_dp src (Table t') /\ t_name t' = t_name t.
Proof.
  intros (St & Sd). destruct src as [nm p]. pose proof St as [D A K C F]. cbn [fst snd] in *.
  destruct Sd as [files tables Sn Un Lf Fr Ne Ng Co Ki _|name files shapes j v In_ Sn Lf Dn Va Sv Fr Ne Ki _|files shapes Sn Un Nm Lf Fr Ne Ki _|a n Sn Wf Un Nm Dy (S1 & S2) _|a n Sn Wf Un Nm Dy (S1 & S2) _]; cbn [fst snd] in *.
  - destruct (translated glob p files D Lf) as (q & T & Tf & Tu).
    destruct (lut_ready glob nm p min_dp "lut_csv" "LutCSV" ["files"] q Sn eq_refl) as (p' & G & Gf & Gv & Gn & Ga); auto; [cbn; tauto|cbn; tauto|intros r [<-|[]]; rewrite Tf; discriminate|].
    destruct (made_offered min_dp k (nm, p) t "LutCSV" p' (value_at inside (flat_map c_rows tables) LNan) St) as (rows & Of & H); [cbn; tauto|exact G| |].
    + apply (C90_csv o edge sq P inside read_table read_shapes k p' b files tables (t_name t) (t_agg t)); auto.
      * destruct Un as (any & Un). exists any. eapply name_read; [exact Un| |exact Gn]. apply Tu. keys.
      * rewrite Gf. exact Tf.
      * eapply agg_read; [exact A| |exact Ga]. apply Tu. keys.
    + eexists. split; [exact Of|]. split; [|reflexivity]. split; [constructor; assumption|]. eapply said_csv; eauto.
  - destruct (translated glob p files D Lf) as (q & T & Tf & Tu).
    assert (X : exists cls, In cls ["LutGeoJSON"; "LutShapefile"] /\ In (name, (cls, ["files"; "value"])) requirements /\ lower name = name).
    { destruct In_ as [<-|[<-|[]]]; [exists "LutGeoJSON"|exists "LutShapefile"]; (split; [cbn; tauto|split; [|reflexivity]]); unfold requirements; cbn [In]; tauto. }
    destruct X as (cls & Ic & Rq & Ln).
    destruct (lut_ready glob nm p min_dp name cls ["files"; "value"] q Sn Ln Rq) as (p' & G & Gf & Gv & Gn & Ga); auto.
    { destruct Ic as [<-|[<-|[]]]; cbn; tauto. }
    { intros r [<-|[<-|[]]]; [rewrite Tf; discriminate|]. rewrite Tu by keys. rewrite Va. discriminate. }
    destruct (made_offered min_dp k (nm, p) t cls p' (zoned inside v (List.concat shapes)) St) as (rows & Of & H); [destruct Ic as [<-|[<-|[]]]; cbn; tauto|exact G| |].
    + apply (C90_shapes o edge sq P inside read_table read_shapes k cls p' b files shapes j v (t_name t) (t_agg t)); auto.
      * left. split; [exact Ic|]. rewrite Gn, Gv, !Tu by keys. rewrite Dn, Va. auto.
      * rewrite Gf. exact Tf.
      * eapply agg_read; [exact A| |exact Ga]. apply Tu. keys.
    + eexists. split; [exact Of|]. split; [|reflexivity]. split; [constructor; assumption|]. eapply said_shapes; eauto.
      exact (wanted_ext _ _ rows (fun x w => zoned_value v (List.concat shapes) x w) H).
  - destruct (translated glob p files D Lf) as (q & T & Tf & Tu).
    destruct (lut_ready glob nm p min_dp "scotland_ncmpa" "ScotlandNCMPA" ["files"] q Sn eq_refl) as (p' & G & Gf & Gv & Gn & Ga); auto; [unfold requirements; cbn [In]; tauto|cbn; tauto|intros r [<-|[]]; rewrite Tf; discriminate|].
    destruct (made_offered min_dp k (nm, p) t "ScotlandNCMPA" p' (zoned inside (LB true) (List.concat shapes)) St) as (rows & Of & H); [cbn; tauto|exact G| |].
    + apply (C90_shapes o edge sq P inside read_table read_shapes k "ScotlandNCMPA" p' b files shapes JNull (LB true) (t_name t) (t_agg t)); auto.
      * right. split; [reflexivity|]. split; [|auto]. eapply name_read; [exact Un| |exact Gn]. apply Tu. keys.
      * rewrite Gf. exact Tf.
      * eapply agg_read; [exact A| |exact Ga]. apply Tu. keys.
    + eexists. split; [exact Of|]. split; [|reflexivity]. split; [constructor; assumption|]. eapply said_zones; eauto.
      exact (wanted_ext _ _ rows (fun x w => zoned_value (LB true) (List.concat shapes) x w) H).
  - assert (T : translate_file_input glob p = Ok p) by (unfold translate_file_input; destruct Wf as [-> ->]; reflexivity).
    destruct (lut_ready glob nm p min_dp "density" "DensityDataLoader" [] p Sn eq_refl) as (p' & G & Gf & Gv & Gn & Ga); auto; [unfold requirements; cbn [In]; tauto|cbn; tauto|].
    destruct (C46_density o b a n Dy) as (rows & Er & (T1 & T2) & _).
    destruct (made_offered min_dp k (nm, p) t "DensityDataLoader" p' (fun x v => exists r, In r rows /\ inside (r_geom r) x /\ v = LQ (r_val r)) St) as (rows' & Of & H); [cbn; tauto|exact G| |].
    + apply (C90_dated o edge sq P inside read_table read_shapes k "DensityDataLoader" (t_name t) p' b rows (t_agg t)); auto.
      * eapply name_read; [exact Un| |exact Gn]. reflexivity.
      * eapply agg_read; [exact A| |exact Ga]. reflexivity.
      * intros r I. eapply S1, T1, I.
      * intros x I. destruct (S2 x I) as (d & g & v & Wn & J). destruct (T2 _ _ _ Wn) as (r & Ir & _ & <- & _). eauto.
    + eexists. split; [exact Of|]. split; [|reflexivity]. split; [constructor; assumption|]. eapply said_density; eauto; [split; assumption|]. split; cbn [t_rows].
      * intros x v I Gi. apply H in Gi as (r & Ir & J & ->); [|exact I]. exists (r_time r), (r_geom r), (r_val r). split; [exact (T1 r Ir)|]. split; [exact J|reflexivity].
      * intros x d g v I Wn J. destruct (T2 _ _ _ Wn) as (r & Ir & _ & <- & Ev). exists (r_val r). split; [exact Ev|]. apply H; [exact I|]. eauto.
  - assert (T : translate_file_input glob p = Ok p) by (unfold translate_file_input; destruct Wf as [-> ->]; reflexivity).
    destruct (lut_ready glob nm p min_dp "thickness" "ThicknessDataLoader" [] p Sn eq_refl) as (p' & G & Gf & Gv & Gn & Ga); auto; [unfold requirements; cbn [In]; tauto|cbn; tauto|].
    assert (U : exists r, In r regions /\ Lut.usable o (part o (rg_shape r) b) = true).
    { destruct (in_region o P inside b Rects Plain) as (x & I). destruct (S2 x I) as (d & g & v & (r & k1 & k2 & y & m & dd & s & Ir & _ & _ & _ & _ & -> & U & _) & _). eauto. }
    destruct (C46_thickness_all o b a n Dy U) as (rows & Er & (T1 & T2)).
    destruct (made_offered min_dp k (nm, p) t "ThicknessDataLoader" p' (fun x v => exists r, In r rows /\ inside (r_geom r) x /\ v = LQ (r_val r)) St) as (rows' & Of & H); [cbn; tauto|exact G| |].
    + apply (C90_dated o edge sq P inside read_table read_shapes k "ThicknessDataLoader" (t_name t) p' b rows (t_agg t)); auto.
      * eapply name_read; [exact Un| |exact Gn]. reflexivity.
      * eapply agg_read; [exact A| |exact Ga]. reflexivity.
      * intros r I. eapply S1, T1, I.
      * intros x I. destruct (S2 x I) as (d & g & v & Wn & J). destruct (T2 _ _ _ Wn) as (r & Ir & _ & <- & _). eauto.
    + eexists. split; [exact Of|]. split; [|reflexivity]. split; [constructor; assumption|]. eapply said_thickness; eauto; [split; assumption|]. split; cbn [t_rows].
      * intros x v I Gi. apply H in Gi as (r & Ir & J & ->); [|exact I]. exists (r_time r), (r_geom r), (r_val r). split; [exact (T1 r Ir)|]. split; [exact J|reflexivity].
      * intros x d g v I Wn J. destruct (T2 _ _ _ Wn) as (r & Ir & _ & <- & Ev). exists (r_val r). split; [exact Ev|]. apply H; [exact I|]. eauto.
Qed.

(** ** The whole way *)
Lemma not_a_shape k cls p r : construct_any sq dsin dcos proj read_csv open_nc k cls p b = Ok r -> cls <> "ShapeDataLoader" /\ cls <> "VectorShapeDataLoader".
Proof.
  intros E. split; intros ->; unfold construct_any, construct_source, construct_grid, import_grid in E; cbn [String.eqb Ascii.eqb Bool.eqb existsb vector_classes era5_waves orb] in E;
    (destruct (attr_files p); [|discriminate]); discriminate.
Qed.
Lemma provides_all min_dp k src s : provides glob (construct_any sq dsin dcos proj read_csv open_nc) sq b min_dp k src s -> provides glob construct sq b min_dp k src s.
Proof.
  assert (X : forall cls p r, ~ In cls table_classes -> construct_any sq dsin dcos proj read_csv open_nc k cls p b = Ok r -> construct k cls p b = Ok r).
  { intros cls p r N E. destruct (not_a_shape _ _ _ _ E) as (N1 & N2). unfold construct_all. rewrite (not_table cls N), (proj2 (String.eqb_neq _ _) N1), (proj2 (String.eqb_neq _ _) N2). exact E. }
  destruct s as [f|v]; cbn [provides].
  - intros ((cls & p & p' & S1 & S2 & S3 & S4 & S5) & R). split; [|exact R]. exists cls, p, p'. split; [exact S1|]. split; [exact S2|]. split; [apply X; assumption|auto].
  - intros ((cls & p & p' & S1 & S2 & S3 & S4 & S5) & R). split; [|exact R]. exists cls, p, p'. split; [exact S1|]. split; [exact S2|]. split; [apply X; assumption|auto].
Qed.
Lemma shape_provided min_dp k src s : plain_region b -> (forall v, s = Vector v -> fit_names (v_names v)) -> describes_shape b min_dp src s ->
  exists s' t, provides glob construct sq b min_dp k src s' /\ sagree b s' t /\ describes_shape b min_dp src t /\ alike t s.
Proof.
  intros R Fn D. destruct s as [f|v]; cbn [describes_shape] in D.
  - destruct (shape_supplied glob sq proj construct b min_dp k src f R) as (f' & g & S & A & Dg & N); [reflexivity|exact D|]. exists (Scalar f'), (Scalar g). repeat (split; [assumption|]). exact N.
  - destruct (vector_shape_supplied glob sq construct b min_dp k src v R (Fn v eq_refl)) as (v' & w & S & A & Dg & N); [reflexivity|exact D|]. exists (Vector v'), (Vector w). repeat (split; [assumption|]). exact N.
Qed.
Lemma origin_offered min_dp k src s : plain_region b -> (forall v, s = Point (Vector v) -> fit_names (v_names v)) -> describes_origin' min_dp src s ->
  exists s' t, offers o edge sq glob construct b min_dp k src s' /\ oagree o b s' t /\ describes_origin' min_dp src t /\ oalike o t s.
Proof.
  intros R Fn D. destruct s as [s|t].
  - destruct D as [D|D].
    + destruct (source_provided glob sq dsin dcos proj read_csv open_nc b min_dp k src s R) as (s' & t & Pr & A & Dt & Al); [intros v ->; apply Fn; reflexivity|exact D|].
      exists (Point s'), (Point t). split; [apply provides_all; exact Pr|]. split; [exact A|]. split; [left; exact Dt|exact Al].
    + destruct (shape_provided min_dp k src s R) as (s' & t & Pr & A & Dt & Al); [intros v ->; apply Fn; reflexivity|exact D|].
      exists (Point s'), (Point t). split; [exact Pr|]. split; [exact A|]. split; [right; exact Dt|exact Al].
  - destruct (table_supplied min_dp k src t D) as (t' & Of & Dt & N). exists (Table t'), (Table t'). split; [exact Of|]. split; [reflexivity|]. auto.
Qed.
Lemma all_offered min_dp : plain_region b -> forall srcs ss0 k,
  Forall2 (describes_origin' min_dp) srcs ss0 -> (forall v, In (Point (Vector v)) ss0 -> fit_names (v_names v)) ->
  exists ss ts, List.length ss = List.length srcs /\
    (forall i src s, nth_error srcs i = Some src -> nth_error ss i = Some s -> offers o edge sq glob construct b min_dp (k + i) src s) /\
    Forall2 (oagree o b) ss ts /\ Forall2 (describes_origin' min_dp) srcs ts /\ Forall2 (oalike o) ts ss0.
Proof.
  intros R srcs ss0 k F. revert k. induction F as [|src s0 srcs ss0 D F IH]; intros k Fn.
  - exists [], []. split; [reflexivity|]. split; [intros [|i] ? ? E; discriminate|]. repeat split; constructor.
  - destruct (origin_offered min_dp k src s0 R) as (s' & t & Pr & A & Dt & Al); [|exact D|].
    { intros v ->. apply Fn. left. reflexivity. }
    destruct (IH (S k)) as (ss & ts & Le & Prs & Ag & De & As); [intros v I; apply Fn; right; exact I|].
    exists (s' :: ss), (t :: ts). split; [cbn; rewrite Le; reflexivity|]. split; [|repeat split; constructor; assumption].
    intros [|i] s1 f1 X1 X2; cbn in X1, X2.
    + injection X1 as <-. injection X2 as <-. rewrite Nat.add_0_r. exact Pr.
    + replace (k + S i)%nat with (S k + i)%nat by lia. apply Prs; assumption.
Qed.
End Tables.

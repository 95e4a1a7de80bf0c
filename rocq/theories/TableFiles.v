(** Proofs about look-up tables as sources, from their files or dates (C90). *)
From Verif Require Import Base Geo Graph Cell Loaders AddLoader VecLoader Builder Env Spec MeshSpec EnvSpec DataSpec QLib PyStr Config ConfigSpec Params Names Sources PipeSpec VecHomSpec MixSpec MixProofs TrimProofs Lut LutSpec LutFiles LutFilesSpec LutFilesProofs LutSources TableSpec TableChain TableProofs.
Open Scope string_scope.
Open Scope Z_scope.

(** Rectangles and the places in them. *)
Definition rectangles (o : planar) {P} (inside : geom o -> P -> Prop) : Prop :=
  (forall a b p, within a b -> inside (g_shape o (Rect a)) p -> inside (g_shape o (Rect b)) p) /\
  (forall a b, within a b -> exists p, inside (g_shape o (Rect a)) p).
Definition blankets {o : planar} {P} (inside : geom o -> P -> Prop) (b : boundary) (t : list (geom o * lval)) : Prop :=
  forall p, inside (g_shape o (Rect b)) p -> exists v, given_at inside t p v.

Lemma selected_in {A} (R : A -> Prop) l l' x : selected R l l' -> In x l -> R x -> In x l'.
Proof. intros S. induction S as [|y l l' Py S IH|y l l' Py S IH]; cbn; [auto| |]; intros [<-|I] Rx; auto; contradiction. Qed.
Lemma blanket_weighty (o : planar) P (inside : geom o -> P -> Prop) b t : lawful o P inside -> rectangles o inside -> blankets inside b t -> weighty o b t.
Proof.
  intros L (R1 & R2) B a met W S N. destruct (R2 a b W) as (p & Ip). destruct (B p (R1 a b p W Ip)) as (v & g & Ig & J).
  assert (M : In (g, v) met) by (apply (selected_in _ _ _ _ S Ig); exact (law_meet o P inside L g _ p J Ip)).
  apply (law_cover o P inside L (map fst met) g a p); auto. apply in_map_iff. exists (g, v). split; [reflexivity|exact M].
Qed.
Lemma value_exists (o : planar) P (inside : geom o -> P -> Prop) rows rest p : lawful o P inside -> exists v, value_at inside rows rest p v.
Proof.
  intros L. assert (D : (exists v, given_at inside rows p v) \/ forall v, ~ given_at inside rows p v).
  { induction rows as [|[g v] rows IH]; [right; intros v (g & [] & _)|]. destruct (law_dec o P inside L g p) as [I|N]; [left; exists v, g; split; [left; reflexivity|exact I]|].
    destruct IH as [(w & g' & I & J)|H]; [left; exists w, g'; split; [right; exact I|exact J]|]. right. intros w (g' & [E|I] & J); [injection E as -> ->; contradiction|]. apply (H w). exists g'. split; assumption. }
  destruct D as [(v & H)|H]; [exists v; left; exact H|]. exists rest. right. split; [reflexivity|exact H].
Qed.
Lemma in_region (o : planar) P (inside : geom o -> P -> Prop) b : rectangles o inside -> within b b -> exists p, inside (g_shape o (Rect b)) p.
Proof. intros (_ & R2) W. exact (R2 b b W). Qed.
Lemma attr_files_read p files : sget p "files" = Some (JArr (map JStr files)) -> attr_files p = Ok files.
Proof.
  intros E. unfold attr_files, attr. rewrite E. cbn [bind]. induction files as [|f files IH]; [reflexivity|]. cbn [map mapM bind]. 
  assert (X : mapM (fun j => match j with JStr s => Ok s | _ => Err TypeError end) (map JStr files) = Ok files); [|rewrite X; reflexivity].
  clear. induction files as [|f files IH]; [reflexivity|]. cbn [map mapM bind]. rewrite IH. reflexivity.
Qed.
Lemma dated_ok (o : planar) P (inside : geom o -> P -> Prop) b rows : lawful o P inside -> rectangles o inside -> within b b ->
  (forall r, In r rows -> g_kind o (r_geom r) = KPolygon) ->
  (forall p, inside (g_shape o (Rect b)) p -> exists r, In r rows /\ inside (r_geom r) p) ->
  exists t, dated o b (Ok rows) = Ok t /\
    forall p v, inside (g_shape o (Rect b)) p -> (given_at inside t p v <-> exists r, In r rows /\ inside (r_geom r) p /\ v = LQ (r_val r)).
Proof.
  intros L R W K C. destruct (in_region o P inside b R W) as (p0 & I0). destruct (C p0 I0) as (r0 & Ir0 & J0).
  unfold dated. cbn [bind]. unfold verify_data. destruct rows as [|r1 rest] eqn:Er; [destruct Ir0|]. rewrite <- Er in *. clear r1 rest Er.
  assert (M : mapM (verify_row o rows) rows = Ok (map (fun r => same_index rows (r_time r)) rows)).
  { apply mapM_map. intros r I. unfold verify_row. rewrite (K r I). reflexivity. }
  rewrite M. cbn [bind]. set (d := map _ (List.concat _)).
  assert (D : forall g v, In (g, v) d <-> exists r, In r rows /\ r_geom r = g /\ r_val r = v).
  { intros g v. unfold d. rewrite in_map_iff. split.
    - intros (r & E & I). injection E as <- <-. apply in_concat in I as (l & Il & I). apply in_map_iff in Il as (r' & <- & _). apply filter_In in I as [I _]. eauto.
    - intros (r & I & <- & <-). exists r. split; [reflexivity|]. apply in_concat. exists (same_index rows (r_time r)). split; [apply in_map_iff; eauto|].
      apply filter_In. split; [exact I|apply Z.eqb_refl]. }
  clearbody d. destruct (qeqb_spec (lut_coverage o b (map fst d)) 0) as [Z|Z].
  { exfalso. assert (I : In (r_geom r0, r_val r0) d) by (apply D; eauto). unfold lut_coverage in Z. destruct (map fst d) as [|g gs] eqn:E; [destruct d; [destruct I|discriminate]|].
    rewrite <- E in Z. apply (law_cover o P inside L (map fst d) (r_geom r0) b p0); auto. apply in_map_iff. eexists. split; [|exact I]. reflexivity. }
  eexists. split; [reflexivity|]. intros p v Ip. unfold given_at. split.
  - intros (g & I & J). apply in_map_iff in I as ([g' q] & E & I). cbn [fst snd] in E. injection E as -> <-. apply filter_In in I as [I _]. apply D in I as (r & I & <- & <-). eauto.
  - intros (r & I & J & ->). exists (r_geom r). split; [|exact J]. apply in_map_iff. exists (r_geom r, r_val r). split; [reflexivity|]. apply filter_In. split; [apply D; eauto|].
    cbn [fst]. exact (law_meet o P inside L _ _ p J Ip).
Qed.

(** ** What stands in a cell is settled *)
Definition alike_value (v w : option Q) : Prop := match v, w with Some x, Some y => (x == y)%Q | None, None => True | _, _ => False end.
Definition alike_json (j k : option jval) : Prop :=
  match j, k with Some (JNum v), Some (JNum w) => alike_value v w | None, None => True | _, _ => False end.
Section Settled.
Variable o : planar.
Variable sq : Q -> Q.
Hypothesis Root : forall x y, (x == y)%Q -> (sq x == sq y)%Q.
Lemma alike_refl v : alike_value v v.
Proof. destruct v; cbn; [reflexivity|exact I]. Qed.
Lemma total_ext {A} (f g : A -> Q) l : (forall x, (f x == g x)%Q) -> (total (map f l) == total (map g l))%Q.
Proof. intros H. unfold total. induction l as [|a l IH]; [reflexivity|]. cbn [map fold_right]. rewrite H, IH. reflexivity. Qed.
Lemma times_cancel x y n : (0 < n)%Q -> (x * n == y * n)%Q -> (x == y)%Q.
Proof. intros P E. apply Qmult_inj_r in E; [exact E|lra]. Qed.
Lemma summary_settled agg vs v w : summary sq agg vs v -> summary sq agg vs w -> alike_value v w.
Proof.
  unfold summary. cbv zeta. destruct (String.eqb_spec agg "COUNT"); [intros -> ->; apply alike_refl|].
  intros [(E & ->)|(N & M & q & -> & H)] [(E' & ->)|(N' & M' & q' & -> & H')]; try (exfalso; tauto); [exact I|]. cbn.
  assert (P : (0 < inject_Z (Z.of_nat (List.length vs)))%Q) by (destruct vs; [contradiction|]; unfold Qlt; cbn; lia).
  destruct H as [(-> & H1 & H2)|[(-> & H1 & H2)|[(-> & H1)|(-> & m & x & H1 & H2 & ->)]]];
    destruct H' as [(E & H1' & H2')|[(E & H1' & H2')|[(E & H1')|(E & m' & x' & H1' & H2' & ->)]]]; try discriminate.
  - pose proof (H2 _ H1'). pose proof (H2' _ H1). lra.
  - pose proof (H2 _ H1'). pose proof (H2' _ H1). lra.
  - apply (times_cancel _ _ _ P). rewrite H1, H1'. reflexivity.
  - apply Root, (times_cancel _ _ _ P). rewrite H2, H2'. apply total_ext. intros y. assert (m == m')%Q as -> by (apply (times_cancel _ _ _ P); rewrite H1, H1'; reflexivity). reflexivity.
Qed.
Lemma table_own_settled t b v w : table_own o sq t b v -> table_own o sq t b w -> alike_value v w.
Proof. intros (m & S & H) (m' & S' & H'). rewrite (selected_unique _ _ _ _ S' S) in H'. eapply summary_settled; eauto. Qed.
Lemma table_filled_settled t l v : table_filled o sq t l v -> forall w, table_filled o sq t l w -> alike_value v w.
Proof.
  induction 1 as [b l q O|b l q O F|b l v O F Fl IH|F]; intros w H; inversion H as [? ? ? O'|? ? ? O' F'|? ? ? O' F' Fl'|]; subst;
    try (pose proof (table_own_settled _ _ _ _ O O') as Y; cbn in Y; try contradiction); auto; try congruence.
  all: try exact I.
  all: try (match goal with A : ?x = Some _, B : ?x = Some _ |- _ => rewrite A in B; injection B as -> end; reflexivity).
Qed.
Lemma single_settled s l v w : single_filled o sq s l v -> single_filled o sq s l w -> alike_value v w.
Proof.
  destruct s as [[f|u]|t]; cbn; [|contradiction|intros A B; exact (table_filled_settled t l v A w B)]. intros A B. rewrite (filled_fun _ _ _ _ A _ B). apply alike_refl.
Qed.
Lemma first_known_alike vs ws : Forall2 alike_value vs ws -> alike_value (first_known vs) (first_known ws).
Proof. induction 1 as [|v w vs ws H F IH]; [exact I|]. destruct v, w; cbn in *; try contradiction; auto. Qed.
Theorem stands_settled ss l n j k : labels_apart o ss -> stands o sq ss l n j -> stands o sq ss l n k -> alike_json j k.
Proof.
  intros (_ & A2 & A3) [(v & i & q & I & N & C & ->)|(No & vs & W & ->)] [(v' & i' & q' & I' & N' & C' & ->)|(No' & ws & W' & ->)].
  - apply In_nth_error in I as (m & I). apply In_nth_error in I' as (m' & I').
    assert (m = m').
    { destruct (Nat.eq_dec m m') as [|Ne]; auto. exfalso. apply (A3 m m' v (Point (Vector v')) n Ne I I'); cbn; eapply nth_error_In; eauto. }
    subst m'. rewrite I in I'. injection I' as <-. destruct (A2 v (nth_error_In _ _ I)) as (Nd & _).
    assert (i = i'). { rewrite NoDup_nth_error in Nd. apply Nd; [apply nth_error_Some; congruence|congruence]. }
    subst i'. rewrite (component_fun _ _ _ _ _ C _ C'). apply alike_refl.
  - exfalso. apply (No' v I). eapply nth_error_In; eauto.
  - exfalso. apply (No v' I'). eapply nth_error_In; eauto.
  - assert (X : Forall2 alike_value vs ws).
    { revert ws W'. induction W as [|s v ls vs H W IH]; intros ws W'; inversion W'; subst; constructor; auto. eapply single_settled; eauto. }
    destruct X as [|v w vs ws H X]; [exact I|]. cbn. apply (first_known_alike (v :: vs) (w :: ws)). constructor; assumption.
Qed.
End Settled.

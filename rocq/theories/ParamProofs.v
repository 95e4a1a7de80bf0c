(** The dataloader factory and default parameters. *)
From Verif Require Import Base QLib Geo Cell PyStr Dates Config ConfigSpec Params ParamSpec.
Open Scope string_scope.
Open Scope Z_scope.

Lemma seqb_refl s : String.eqb s s = true.
Proof. apply String.eqb_refl. Qed.
Lemma sget_sset {V} (d : sdict V) k v k' : sget (sset d k v) k' = if String.eqb k' k then Some v else sget d k'.
Proof.
  induction d as [|[a x] d IH]; cbn.
  - destruct (String.eqb k' k); reflexivity.
  - destruct (String.eqb_spec k a) as [->|N]; cbn.
    + destruct (String.eqb_spec k' a); reflexivity.
    + rewrite IH. destruct (String.eqb_spec k' a) as [->|]; [|reflexivity].
      destruct (String.eqb_spec a k); [congruence | reflexivity].
Qed.
Lemma sset_same {V} (d : sdict V) k v : sget d k = Some v -> sset d k v = d.
Proof.
  induction d as [|[a x] d IH]; cbn; [discriminate|].
  destruct (String.eqb_spec k a) as [->|]; [intros [= ->]; reflexivity|]. intros H. rewrite (IH H). reflexivity.
Qed.
Lemma given_some d k : given d k = true <-> sget d k <> None.
Proof. unfold given. destruct (sget d k); split; congruence. Qed.
Lemma sget_dflt k v d k' : sget (dflt k v d) k' =
  if String.eqb k' k then match sget d k with Some x => Some x | None => Some v end else sget d k'.
Proof.
  unfold dflt, given. destruct (sget d k) as [x|] eqn:E.
  - destruct (String.eqb_spec k' k) as [->|]; [exact E | reflexivity].
  - rewrite sget_sset. destruct (String.eqb k' k); reflexivity.
Qed.
Lemma given_dflt k v d k' : given (dflt k v d) k' = String.eqb k' k || given d k'.
Proof.
  unfold given at 1. rewrite sget_dflt. destruct (String.eqb_spec k' k) as [->|]; cbn.
  - destruct (sget d k); reflexivity.
  - reflexivity.
Qed.
Lemma given_sset k v d k' : given (sset d k v) k' = String.eqb k' k || given d k'.
Proof. unfold given at 1. rewrite sget_sset. destruct (String.eqb k' k); reflexivity. Qed.
Lemma given_if (b : bool) p q k : given (if b then p else q) k = if b then given p k else given q k.
Proof. destruct b; reflexivity. Qed.
Lemma dflt_given k v d : given d k = true -> dflt k v d = d.
Proof. unfold dflt. intros ->. reflexivity. Qed.

Lemma keeps_refl p : keeps p p.
Proof. intros k v H. exact H. Qed.
Lemma keeps_trans p q r : keeps p q -> keeps q r -> keeps p r.
Proof. intros H1 H2 k v H. auto. Qed.
Lemma keeps_dflt k v p q : keeps p q -> keeps p (dflt k v q).
Proof.
  intros H k' x E. specialize (H k' x E). rewrite sget_dflt.
  destruct (String.eqb_spec k' k) as [->|]; [rewrite H|]; auto.
Qed.
Lemma keeps_given p q k : keeps p q -> given p k = true -> given q k = true.
Proof. intros H. unfold given. destruct (sget p k) eqn:E; [|discriminate]. rewrite (H _ _ E). auto. Qed.
Lemma keeps_null p q k v : is_null q k = true -> keeps p q -> keeps_but [k] p (sset q k v).
Proof.
  intros _ H k' x N E. rewrite sget_sset. destruct (String.eqb_spec k' k) as [->|]; [exfalso; apply N; cbn; auto | auto].
Qed.
Lemma keeps_but_dflt l k v p q : keeps_but l p q -> keeps_but l p (dflt k v q).
Proof.
  intros H k' x N E. specialize (H k' x N E). rewrite sget_dflt.
  destruct (String.eqb_spec k' k) as [->|]; [rewrite H|]; auto.
Qed.
Lemma keeps_but_sset l k v p q : In k l -> keeps_but l p q -> keeps_but l p (sset q k v).
Proof.
  intros I H k' x N E. rewrite sget_sset. destruct (String.eqb_spec k' k) as [->|]; [contradiction | auto].
Qed.
Lemma keeps_keeps_but l p q : keeps p q -> keeps_but l p q.
Proof. intros H k v _ E. auto. Qed.

#[local] Opaque dflt sset.
(** Keys given after a chain of defaults. *)
Ltac chain := repeat (rewrite ?given_dflt, ?given_sset); cbn [String.eqb Ascii.eqb Bool.eqb orb andb]; rewrite ?orb_true_r; try reflexivity.

Definition keeps_known (p p' : params) : Prop :=
  forall k v, sget p k = Some v -> (k = "data_name" -> v <> JNull) -> sget p' k = Some v.
Lemma known_dflt k v p q : keeps_known p q -> keeps_known p (dflt k v q).
Proof.
  intros H k' x E N. specialize (H k' x E N). rewrite sget_dflt.
  destruct (String.eqb_spec k' k) as [->|]; [rewrite H|]; auto.
Qed.
Ltac kd := repeat match goal with
  | |- keeps _ (dflt _ _ _) => apply keeps_dflt
  | |- keeps_but _ _ (dflt _ _ _) => apply keeps_but_dflt
  | |- keeps_known _ (dflt _ _ _) => apply known_dflt
  end.
Lemma base_keeps cls p : keeps p (base_defaults cls p).
Proof. unfold base_defaults. kd. apply keeps_refl. Qed.
Lemma base_given cls p k : In k base_required -> given (base_defaults cls p) k = true.
Proof. unfold base_defaults. intros H. repeat (destruct H as [<-|H]; [chain|]). destruct H. Qed.
(** Nothing to do when everything is given. *)
Ltac fixed p H := repeat match goal with |- context [dflt ?k ?v p] => rewrite (dflt_given k v p) by (apply H; cbn; tauto) end.
Lemma base_fixed cls p : (forall k, In k base_required -> given p k = true) -> base_defaults cls p = p.
Proof. intros H. unfold base_defaults. cbv zeta. fixed p H. reflexivity. Qed.

Lemma lut_keeps cls p : keeps p (lut_defaults cls p).
Proof. unfold lut_defaults. kd. apply keeps_refl. Qed.
Lemma lut_given cls p k : In k lut_required -> given (lut_defaults cls p) k = true.
Proof. unfold lut_defaults. intros H. repeat (destruct H as [<-|H]; [chain|]). destruct H. Qed.
Lemma lut_fixed cls p : (forall k, In k lut_required -> given p k = true) -> lut_defaults cls p = p.
Proof. intros H. unfold lut_defaults. cbv zeta. fixed p H. reflexivity. Qed.
Lemma lut_file_same cls p : lut_file_defaults cls p = lut_defaults cls p.
Proof. unfold lut_file_defaults. apply dflt_given. apply lut_given. cbn. auto. Qed.

Lemma is_name_dflt k v p n : k <> "dataloader_name" -> is_name (dflt k v p) n = is_name p n.
Proof.
  intros N. unfold is_name. rewrite sget_dflt. destruct (String.eqb_spec "dataloader_name" k); [congruence | reflexivity].
Qed.
Lemma is_name_sset k v p n : k <> "dataloader_name" -> is_name (sset p k v) n = is_name p n.
Proof.
  intros N. unfold is_name. rewrite sget_sset. destruct (String.eqb_spec "dataloader_name" k); [congruence | reflexivity].
Qed.
Ltac names := repeat (first [rewrite is_name_dflt by discriminate | rewrite is_name_sset by discriminate]).

(** The defaults of the abstract shapes, as a function of the name. *)
Lemma base_name cls p : sget (base_defaults cls p) "dataloader_name" =
  match sget p "dataloader_name" with Some v => Some v | None => Some (JStr cls) end.
Proof. unfold base_defaults. cbv zeta. repeat (rewrite sget_dflt; cbn [String.eqb Ascii.eqb Bool.eqb]). reflexivity. Qed.

Lemma shape_given_base cls p k : In k (base_required ++ ["nx"; "ny"; "multiplier"]) -> given (shape_defaults cls p) k = true.
Proof.
  intros H. unfold shape_defaults. cbv zeta.
  assert (E : given (dflt "multiplier" (JInt 1) (dflt "ny" (JInt 101) (dflt "nx" (JInt 101) (base_defaults cls p)))) k = true).
  { apply in_app_or in H. destruct H as [H|H].
    - rewrite !given_dflt, (base_given cls p k H), !orb_true_r. reflexivity.
    - generalize (base_defaults cls p). intros r. repeat (destruct H as [<-|H]; [chain|]). destruct H. }
  revert E. generalize (dflt "multiplier" (JInt 1) (dflt "ny" (JInt 101) (dflt "nx" (JInt 101) (base_defaults cls p)))) as q.
  intros q E. rewrite !given_if, ?given_dflt, ?given_if, ?given_sset, ?given_dflt, E, ?orb_true_r.
  repeat match goal with |- context [if ?b then _ else _] => destruct b end; rewrite ?orb_true_r; reflexivity.
Qed.
Lemma shape_is_name cls p n : is_name (shape_defaults cls p) n = is_name (base_defaults cls p) n.
Proof.
  unfold shape_defaults. cbv zeta.
  repeat match goal with |- context [if ?b then _ else _] => destruct b end; names; reflexivity.
Qed.

Definition circle_part (r : params) : params := dflt "centre" no_centre (dflt "radius" (JInt 1) r).
Definition rectangle_part (r : params) : params :=
  let p := dflt "width" (JInt 1) r in
  let p := if given p "height" then p else sset p "width" (JInt 1) in
  dflt "centre" no_centre p.
Lemma circle_part_twice r : circle_part (circle_part r) = circle_part r.
Proof.
  set (t := circle_part r). unfold circle_part.
  rewrite (dflt_given "radius" (JInt 1) t) by (subst t; unfold circle_part; chain).
  apply dflt_given. subst t. unfold circle_part. chain.
Qed.
Lemma rectangle_part_twice r : rectangle_part (rectangle_part r) = rectangle_part r.
Proof.
  set (t := rectangle_part r).
  assert (Ew : given t "width" = true).
  { subst t. unfold rectangle_part. cbv zeta. rewrite given_dflt. destruct (given (dflt "width" (JInt 1) r) "height"); chain. }
  assert (Ec : given t "centre" = true).
  { subst t. unfold rectangle_part. cbv zeta. rewrite given_dflt. reflexivity. }
  unfold rectangle_part. cbv zeta. rewrite (dflt_given "width" (JInt 1) t Ew).
  destruct (given t "height") eqn:Eh; [apply dflt_given; exact Ec|].
  rewrite (sset_same t "width" (JInt 1)); [apply dflt_given; exact Ec|].
  subst t. unfold rectangle_part in *. cbv zeta in *. rewrite given_dflt in Eh. cbn [String.eqb Ascii.eqb Bool.eqb orb] in Eh.
  rewrite sget_dflt. cbn [String.eqb Ascii.eqb Bool.eqb].
  destruct (given (dflt "width" (JInt 1) r) "height") eqn:E; [congruence|]. rewrite sget_sset. reflexivity.
Qed.
Lemma part_keeps_circle r : keeps r (circle_part r).
Proof. unfold circle_part. kd. apply keeps_refl. Qed.

Lemma shape_idempotent cls p : shape_defaults cls (shape_defaults cls p) = shape_defaults cls p.
Proof.
  set (q := shape_defaults cls p). assert (G := shape_given_base cls p). fold q in G.
  assert (NM := shape_is_name cls p). fold q in NM.
  unfold shape_defaults at 1. cbv zeta.
  rewrite (base_fixed cls q) by (intros k H; apply G, in_or_app; auto).
  fixed q G. rewrite !NM. clear G NM.
  fold (circle_part q). fold (rectangle_part q).
  subst q. unfold shape_defaults. cbv zeta. names.
  generalize (is_name (base_defaults cls p)). generalize (base_defaults cls p). intros b nm.
  generalize (dflt "multiplier" (JInt 1) (dflt "ny" (JInt 101) (dflt "nx" (JInt 101) b))). intros r.
  destruct (nm "circle"); [exact (circle_part_twice r)|].
  destruct (nm "rectangle"); [exact (rectangle_part_twice r)|].
  destruct (nm "gradient"); [apply dflt_given; rewrite given_dflt; reflexivity|].
  destruct (nm "checkerboard"); [apply dflt_given; rewrite given_dflt; reflexivity | reflexivity].
Qed.

(** What the shapes keep and fill. *)
Lemma shape_keeps cls p : is_name (base_defaults cls p) "rectangle" = false \/ given p "height" = true -> keeps p (shape_defaults cls p).
Proof.
  intros H. unfold shape_defaults. cbv zeta. names.
  set (r := dflt "multiplier" _ _).
  assert (K : keeps p r) by (subst r; kd; apply base_keeps).
  assert (Hr : given p "height" = true -> given r "height" = true) by (apply keeps_given; exact K).
  clearbody r. destruct (is_name (base_defaults cls p) "circle"); [kd; exact K|].
  destruct (is_name (base_defaults cls p) "rectangle").
  { destruct H as [H|H]; [discriminate|]. rewrite given_dflt, (Hr H), orb_true_r. kd; exact K. }
  destruct (is_name (base_defaults cls p) "gradient"); [kd; exact K|].
  destruct (is_name (base_defaults cls p) "checkerboard"); [kd; exact K|exact K].
Qed.
Lemma shape_keeps_but cls p : keeps_but ["width"] p (shape_defaults cls p).
Proof.
  unfold shape_defaults. cbv zeta. names.
  set (r := dflt "multiplier" _ _).
  assert (K : keeps_but ["width"] p r) by (apply keeps_keeps_but; subst r; kd; apply base_keeps).
  clearbody r.
  repeat match goal with |- context [if ?b then _ else _] => destruct b end; kd;
    try (apply keeps_but_sset; [cbn; auto|]); kd; exact K.
Qed.
Lemma is_name_eq p s n : sget p "dataloader_name" = Some (JStr s) -> is_name p n = String.eqb s n.
Proof. unfold is_name. intros ->. reflexivity. Qed.
Lemma base_is_name cls p s n : sget p "dataloader_name" = Some (JStr s) -> is_name (base_defaults cls p) n = String.eqb s n.
Proof. intros H. apply is_name_eq. rewrite base_name, H. reflexivity. Qed.

Lemma shape_fills cls p s k : sget p "dataloader_name" = Some (JStr s) -> s <> "rectangle" \/ given p "height" = true ->
  In k (shape_required s) -> given (shape_defaults cls p) k = true.
Proof.
  intros N R H.
  destruct (in_dec string_dec k (base_required ++ ["nx"; "ny"; "multiplier"])) as [I|I]; [apply shape_given_base; exact I|].
  unfold shape_required in H. unfold shape_defaults. cbv zeta. names. rewrite !(base_is_name cls p s) by exact N.
  assert (Hr : given p "height" = true -> given (dflt "multiplier" (JInt 1) (dflt "ny" (JInt 101) (dflt "nx" (JInt 101) (base_defaults cls p)))) "height" = true).
  { apply keeps_given. kd. apply base_keeps. }
  revert Hr. generalize (dflt "multiplier" (JInt 1) (dflt "ny" (JInt 101) (dflt "nx" (JInt 101) (base_defaults cls p)))). intros r Hr.
  assert (I' : ~ In k ["nx"; "ny"; "multiplier"]) by (intros X; apply I, in_or_app; auto). clear I.
  destruct (String.eqb_spec s "circle") as [->|].
  { repeat (destruct H as [<-|H]; [first [exfalso; apply I'; cbn; tauto | chain]|]). destruct H. }
  destruct (String.eqb_spec s "rectangle") as [->|].
  { destruct R as [R|R]; [congruence|]. rewrite (given_dflt "width"), (Hr R), orb_true_r.
    repeat (destruct H as [<-|H]; [first [exfalso; apply I'; cbn; tauto | chain; exact (Hr R)] |]). destruct H. }
  destruct (String.eqb_spec s "gradient") as [->|].
  { repeat (destruct H as [<-|H]; [first [exfalso; apply I'; cbn; tauto | chain] |]). destruct H. }
  destruct (String.eqb_spec s "checkerboard") as [->|].
  { repeat (destruct H as [<-|H]; [first [exfalso; apply I'; cbn; tauto | chain] |]). destruct H. }
  destruct H.
Qed.

(** ** Vector shapes *)
Definition mult_part (b : params) : params :=
  let p := if given b "multiplier_u" then b else sset b "multiplier" (JInt 1) in
  if given p "multiplier_v" then p else sset p "multiplier" (JInt 1).
Lemma mult_part_other b k : k <> "multiplier" -> sget (mult_part b) k = sget b k.
Proof.
  intros N. unfold mult_part. cbv zeta.
  assert (S : forall q, sget (sset q "multiplier" (JInt 1)) k = sget q k).
  { intros q. rewrite sget_sset. destruct (String.eqb_spec k "multiplier"); [contradiction | reflexivity]. }
  destruct (given b "multiplier_u"); [destruct (given b "multiplier_v") | destruct (given (sset b "multiplier" (JInt 1)) "multiplier_v")];
    rewrite ?S; reflexivity.
Qed.
Lemma mult_part_given b k : given b k = true -> given (mult_part b) k = true.
Proof.
  intros H. unfold mult_part. cbv zeta.
  destruct (given b "multiplier_u"); [destruct (given b "multiplier_v") | destruct (given (sset b "multiplier" (JInt 1)) "multiplier_v")];
    rewrite ?given_sset, ?H, ?orb_true_r; auto.
Qed.
Lemma given_other b c k : sget b k = sget c k -> given b k = given c k.
Proof. unfold given. intros ->. reflexivity. Qed.
(** Doing it again on anything that keeps these three entries changes nothing. *)
Lemma mult_part_fixed b q :
  (forall k, In k ["multiplier_u"; "multiplier_v"; "multiplier"] -> sget q k = sget (mult_part b) k) -> mult_part q = q.
Proof.
  intros H.
  assert (Hu : given q "multiplier_u" = given b "multiplier_u").
  { apply given_other. rewrite H by (cbn; auto). apply mult_part_other. discriminate. }
  assert (Hv : given q "multiplier_v" = given b "multiplier_v").
  { apply given_other. rewrite H by (cbn; auto). apply mult_part_other. discriminate. }
  assert (Hm : given b "multiplier_u" = false \/ given b "multiplier_v" = false -> sget q "multiplier" = Some (JInt 1)).
  { intros D. rewrite H by (cbn; auto). unfold mult_part. cbv zeta.
    destruct (given b "multiplier_u") eqn:U.
    - destruct (given b "multiplier_v") eqn:V; [destruct D; discriminate | rewrite sget_sset; reflexivity].
    - destruct (given (sset b "multiplier" (JInt 1)) "multiplier_v"); rewrite sget_sset; reflexivity. }
  unfold mult_part. cbv zeta. rewrite Hu.
  destruct (given b "multiplier_u") eqn:U.
  - rewrite Hv. destruct (given b "multiplier_v") eqn:V; [reflexivity|]. apply sset_same. auto.
  - rewrite (sset_same q "multiplier" (JInt 1)) by auto. rewrite Hv.
    destruct (given b "multiplier_v") eqn:V; [reflexivity|]. apply sset_same. auto.
Qed.
Lemma circle_part_other r k : k <> "radius" -> k <> "centre" -> sget (circle_part r) k = sget r k.
Proof.
  intros A B. unfold circle_part. rewrite !sget_dflt.
  destruct (String.eqb_spec k "centre"); [contradiction|]. destruct (String.eqb_spec k "radius"); [contradiction | reflexivity].
Qed.
Lemma rectangle_part_other r k : k <> "width" -> k <> "centre" -> sget (rectangle_part r) k = sget r k.
Proof.
  intros A B. unfold rectangle_part. cbv zeta. rewrite sget_dflt.
  destruct (String.eqb_spec k "centre"); [contradiction|].
  destruct (given (dflt "width" (JInt 1) r) "height"); rewrite ?sget_sset, sget_dflt;
    destruct (String.eqb_spec k "width"); try contradiction; reflexivity.
Qed.

Definition vshape_part (nm : string -> bool) (r : params) : params :=
  if nm "circle" then circle_part r else if nm "rectangle" then rectangle_part r
  else if nm "gradient" then dflt "vertical" (JBool true) r else r.
Lemma vshape_part_other nm r k : ~ In k ["radius"; "centre"; "width"; "vertical"] -> sget (vshape_part nm r) k = sget r k.
Proof.
  intros N. unfold vshape_part.
  assert (k <> "radius" /\ k <> "centre" /\ k <> "width" /\ k <> "vertical") as (A & B & C & D)
    by (repeat split; intros ->; apply N; cbn; auto).
  destruct (nm "circle"); [apply circle_part_other; auto|]. destruct (nm "rectangle"); [apply rectangle_part_other; auto|].
  destruct (nm "gradient"); [|reflexivity]. rewrite sget_dflt. destruct (String.eqb_spec k "vertical"); [contradiction | reflexivity].
Qed.
Lemma vshape_part_twice nm r : vshape_part nm (vshape_part nm r) = vshape_part nm r.
Proof.
  unfold vshape_part. destruct (nm "circle"); [apply circle_part_twice|]. destruct (nm "rectangle"); [apply rectangle_part_twice|].
  destruct (nm "gradient"); [|reflexivity]. apply dflt_given. rewrite given_dflt. reflexivity.
Qed.
Lemma vshape_form cls p : vector_shape_defaults cls p =
  vshape_part (is_name (base_defaults cls p)) (mult_part (dflt "ny" (JInt 101) (dflt "nx" (JInt 101) (base_defaults cls p)))).
Proof.
  unfold vector_shape_defaults, vshape_part, circle_part, rectangle_part. cbv zeta.
  set (b := dflt "ny" _ _).
  assert (NB : forall n, is_name b n = is_name (base_defaults cls p) n) by (intros n; subst b; names; reflexivity).
  fold (mult_part b).
  assert (NM : forall n, is_name (mult_part b) n = is_name (base_defaults cls p) n).
  { intros n. rewrite <- NB. unfold is_name. rewrite mult_part_other by discriminate. reflexivity. }
  change (if given (if given b "multiplier_u" then b else sset b "multiplier" (JInt 1)) "multiplier_v"
     then if given b "multiplier_u" then b else sset b "multiplier" (JInt 1)
     else sset (if given b "multiplier_u" then b else sset b "multiplier" (JInt 1)) "multiplier" (JInt 1)) with (mult_part b).
  rewrite !NM. reflexivity.
Qed.
Lemma vshape_idempotent cls p : vector_shape_defaults cls (vector_shape_defaults cls p) = vector_shape_defaults cls p.
Proof.
  set (q := vector_shape_defaults cls p). rewrite vshape_form.
  assert (Q := vshape_form cls p). fold q in Q.
  set (b := dflt "ny" (JInt 101) (dflt "nx" (JInt 101) (base_defaults cls p))) in *.
  assert (G : forall k, ~ In k ["radius"; "centre"; "width"; "vertical"] -> sget q k = sget (mult_part b) k).
  { intros k N. rewrite Q. apply vshape_part_other. exact N. }
  assert (GB : forall k, In k base_required -> given q k = true).
  { intros k H. rewrite (given_other q (mult_part b)).
    - apply mult_part_given. subst b. rewrite !given_dflt, (base_given cls p k H), !orb_true_r. reflexivity.
    - apply G. cbn in H |- *. intuition (subst; discriminate). }
  rewrite (base_fixed cls q) by exact GB.
  assert (Ex : given q "nx" = true).
  { rewrite (given_other q (mult_part b)) by (apply G; cbn; intuition discriminate). apply mult_part_given. subst b. chain. }
  assert (Ey : given q "ny" = true).
  { rewrite (given_other q (mult_part b)) by (apply G; cbn; intuition discriminate). apply mult_part_given. subst b. chain. }
  rewrite (dflt_given "nx" (JInt 101) q Ex), (dflt_given "ny" (JInt 101) q Ey).
  rewrite (mult_part_fixed b q).
  2:{ intros k H. apply G. cbn in H |- *. intuition (subst; discriminate). }
  assert (NM : forall n, is_name q n = is_name (base_defaults cls p) n).
  { intros n. unfold is_name. rewrite G by (cbn; intuition discriminate). rewrite mult_part_other by discriminate. subst b.
    repeat (rewrite sget_dflt; cbn [String.eqb Ascii.eqb Bool.eqb]). reflexivity. }
  assert (E : vshape_part (is_name q) q = vshape_part (is_name (base_defaults cls p)) q).
  { unfold vshape_part. rewrite !NM. reflexivity. }
  rewrite E, Q. apply vshape_part_twice.
Qed.
Lemma vshape_keeps_but cls p : keeps_but ["multiplier"; "width"] p (vector_shape_defaults cls p).
Proof.
  rewrite vshape_form. intros k v N E.
  assert (Kb : sget (dflt "ny" (JInt 101) (dflt "nx" (JInt 101) (base_defaults cls p))) k = Some v).
  { revert E. apply (keeps_dflt _ _ p), keeps_dflt, base_keeps. }
  revert Kb. generalize (dflt "ny" (JInt 101) (dflt "nx" (JInt 101) (base_defaults cls p))). intros b Kb.
  assert (Km : sget (mult_part b) k = Some v) by (rewrite mult_part_other; [exact Kb | intros ->; apply N; cbn; auto]).
  unfold vshape_part, circle_part, rectangle_part. cbv zeta. revert Km. generalize (mult_part b). intros r Kr.
  assert (K : keeps_but ["width"] [(k, v)] r).
  { intros k' v' _. cbn. destruct (String.eqb_spec k' k) as [->|]; [intros [= <-]; exact Kr | discriminate]. }
  assert (KK : keeps_but ["width"] [(k, v)] (vshape_part (is_name (base_defaults cls p)) r)).
  { unfold vshape_part, circle_part, rectangle_part. cbv zeta.
    repeat match goal with |- context [if ?b then _ else _] => destruct b end; kd;
      try (apply keeps_but_sset; [cbn; auto|]); kd; exact K. }
  apply KK; [intros [<-|[]]; apply N; cbn; auto | cbn; rewrite seqb_refl; reflexivity].
Qed.
(** The name of a vector shape is none of the names compared with. *)
Lemma vshape_other cls p s k : sget p "dataloader_name" = Some (JStr s) -> In s ["vector_circle"; "vector_gradient"; "vector_rectangle"] ->
  In k ["multiplier_u"; "multiplier_v"; "radius"; "centre"; "width"; "height"; "vertical"] ->
  sget (vector_shape_defaults cls p) k = sget p k.
Proof.
  intros N Hs Hk. rewrite vshape_form.
  assert (E : vshape_part (is_name (base_defaults cls p)) = fun r => r).
  { unfold vshape_part. rewrite !(base_is_name cls p s) by exact N.
    destruct Hs as [<-|[<-|[<-|[]]]]; reflexivity. }
  rewrite E. rewrite mult_part_other by (cbn in Hk; intuition (subst; discriminate)).
  unfold base_defaults. cbv zeta.
  repeat (destruct Hk as [<-|Hk]; [repeat (rewrite sget_dflt; cbn [String.eqb Ascii.eqb Bool.eqb]); reflexivity|]). destruct Hk.
Qed.

(** ** Random fields *)
(** [if p["data_name"] is None: p["data_name"] = s] *)
Definition named (s : string) (p : params) : params :=
  if is_null p "data_name" then sset p "data_name" (JStr s) else p.
Lemma named_other s p k : k <> "data_name" -> sget (named s p) k = sget p k.
Proof.
  intros N. unfold named. destruct (is_null p "data_name"); [|reflexivity]. rewrite sget_sset.
  destruct (String.eqb_spec k "data_name"); [contradiction | reflexivity].
Qed.
Lemma named_name s p : is_null (named s p) "data_name" = false.
Proof. unfold named. destruct (is_null p "data_name") eqn:E; [|exact E]. unfold is_null. rewrite sget_sset. reflexivity. Qed.
Lemma named_given s p k : given p k = true -> given (named s p) k = true.
Proof. intros H. unfold named. destruct (is_null p "data_name"); [rewrite given_sset, H, orb_true_r; reflexivity | exact H]. Qed.
Lemma named_fixed s p : is_null p "data_name" = false -> named s p = p.
Proof. unfold named. intros ->. reflexivity. Qed.
Lemma null_dflt k v p : k <> "data_name" -> is_null (dflt k v p) "data_name" = is_null p "data_name".
Proof. intros N. unfold is_null. rewrite sget_dflt. destruct (String.eqb_spec "data_name" k); [congruence | reflexivity]. Qed.
(** What the user gave is kept, except a data name of None. *)
Lemma known_named s p q : keeps_known p q -> keeps_known p (named s q).
Proof.
  intros H k x E N. specialize (H k x E N). unfold named. destruct (is_null q "data_name") eqn:Z; [|exact H].
  rewrite sget_sset. destruct (String.eqb_spec k "data_name") as [->|]; [|exact H].
  unfold is_null in Z. rewrite H in Z. destruct x; try discriminate. exfalso. apply N; reflexivity.
Qed.
Lemma keeps_known_keeps p q : keeps p q -> keeps_known p q.
Proof. intros H k v E _. auto. Qed.

Definition grf_base (cls : string) (p : params) : params :=
  dflt "alpha" (JInt 3) (dflt "size" (JInt 512) (dflt "seed" JNull (base_defaults cls p))).
Definition grf_required0 : list string := (base_required ++ ["seed"; "size"; "alpha"])%list.
Lemma grf_base_given cls p k : In k grf_required0 -> given (grf_base cls p) k = true.
Proof.
  intros H. unfold grf_base. apply in_app_or in H. destruct H as [H|H].
  - rewrite !given_dflt, (base_given cls p k H), !orb_true_r. reflexivity.
  - generalize (base_defaults cls p). intros r. repeat (destruct H as [<-|H]; [chain|]). destruct H.
Qed.
Lemma grf_base_keeps cls p : keeps p (grf_base cls p).
Proof. unfold grf_base. kd. apply base_keeps. Qed.
Lemma grf_base_fixed cls q : (forall k, In k grf_required0 -> given q k = true) -> grf_base cls q = q.
Proof.
  intros H. unfold grf_base. rewrite (base_fixed cls q) by (intros k I; apply H, in_or_app; auto).
  rewrite (dflt_given "seed"), (dflt_given "size"), (dflt_given "alpha"); try reflexivity; apply H; cbn; tauto.
Qed.
Lemma grf_base_binary cls p : sget (grf_base cls p) "binary" = sget p "binary".
Proof. unfold grf_base, base_defaults. cbv zeta. repeat (rewrite sget_dflt; cbn [String.eqb Ascii.eqb Bool.eqb]). reflexivity. Qed.

Lemma true_read v l : l = true <-> equals_true v -> py_true v = l.
Proof.
  intros H. assert (E : py_true v = true <-> equals_true v).
  { unfold equals_true. destruct v; cbn; split.
    all: try discriminate.
    all: try (intros [X|(q' & N & Q1)]; [try discriminate X|inversion N; subst]).
    all: try (intros X).
    - left. rewrite X. reflexivity.
    - injection X as ->. reflexivity.
    - apply Z.eqb_eq in X as ->. right. exists (inject_Z 1). split; [constructor|reflexivity].
    - apply Z.eqb_eq. unfold Qeq in Q1. cbn in Q1. lia.
    - apply qeqb_true in X. right. eexists. split; [constructor|exact X].
    - apply qeqb_true. exact Q1. }
  destruct (py_true v), l; auto; [symmetry; apply H, E; reflexivity|apply E, H; reflexivity].
Qed.
Definition binary_part (r : params) : params :=
  dflt "threshold" (JFloat (1#2)) (dflt "max" (JInt 1) (dflt "min" (JInt 0) (named "binary_data" r))).
Definition smooth_part (r : params) : params :=
  dflt "offset" (JInt 0) (dflt "multiplier" (JInt 1) (dflt "threshold" (JArr [JInt 0; JInt 1])
    (dflt "max" (JInt 10) (dflt "min" (JInt (-10)) (named "scalar_data" r))))).
Lemma grf_form cls p : scalar_grf_defaults cls p =
  match sget p "binary" with
  | None => Err KeyError
  | Some b => Ok (if py_true b then binary_part (grf_base cls p) else smooth_part (grf_base cls p))
  end.
Proof.
  unfold scalar_grf_defaults. cbv zeta. fold (grf_base cls p). rewrite grf_base_binary.
  destruct (sget p "binary") as [b|]; [|reflexivity]. destruct (py_true b); reflexivity.
Qed.
Lemma binary_part_fixed q : is_null q "data_name" = false -> (forall k, In k ["min"; "max"; "threshold"] -> given q k = true) ->
  binary_part q = q.
Proof.
  intros N H. unfold binary_part. rewrite named_fixed by exact N. cbv zeta.
  rewrite (dflt_given "min"), (dflt_given "max"), (dflt_given "threshold"); try reflexivity; apply H; cbn; tauto.
Qed.
Lemma smooth_part_fixed q : is_null q "data_name" = false ->
  (forall k, In k ["min"; "max"; "threshold"; "multiplier"; "offset"] -> given q k = true) -> smooth_part q = q.
Proof.
  intros N H. unfold smooth_part. rewrite named_fixed by exact N. cbv zeta.
  rewrite (dflt_given "min"), (dflt_given "max"), (dflt_given "threshold"), (dflt_given "multiplier"), (dflt_given "offset");
    try reflexivity; apply H; cbn; tauto.
Qed.
Lemma binary_part_given r k : In k ["min"; "max"; "threshold"] \/ given r k = true -> given (binary_part r) k = true.
Proof.
  unfold binary_part. intros [H|H].
  - generalize (named "binary_data" r). intros n. repeat (destruct H as [<-|H]; [chain|]). destruct H.
  - rewrite !given_dflt, (named_given _ _ _ H), !orb_true_r. reflexivity.
Qed.
Lemma smooth_part_given r k : In k ["min"; "max"; "threshold"; "multiplier"; "offset"] \/ given r k = true -> given (smooth_part r) k = true.
Proof.
  unfold smooth_part. intros [H|H].
  - generalize (named "scalar_data" r). intros n. repeat (destruct H as [<-|H]; [chain|]). destruct H.
  - rewrite !given_dflt, (named_given _ _ _ H), !orb_true_r. reflexivity.
Qed.
Lemma binary_part_binary r : sget (binary_part r) "binary" = sget r "binary".
Proof.
  unfold binary_part. repeat (rewrite sget_dflt; cbn [String.eqb Ascii.eqb Bool.eqb]). apply named_other. discriminate.
Qed.
Lemma smooth_part_binary r : sget (smooth_part r) "binary" = sget r "binary".
Proof.
  unfold smooth_part. repeat (rewrite sget_dflt; cbn [String.eqb Ascii.eqb Bool.eqb]). apply named_other. discriminate.
Qed.
Lemma grf_idempotent cls p p' : scalar_grf_defaults cls p = Ok p' -> scalar_grf_defaults cls p' = Ok p'.
Proof.
  rewrite !grf_form. destruct (sget p "binary") as [b|] eqn:B; [|discriminate]. intros [= <-].
  assert (G0 := grf_base_given cls p). assert (B' := grf_base_binary cls p). rewrite B in B'.
  destruct (py_true b) eqn:T.
  - rewrite binary_part_binary, B', T. f_equal.
    rewrite (grf_base_fixed cls (binary_part (grf_base cls p))) by (intros k H; apply binary_part_given; auto).
    apply binary_part_fixed; [|intros k H; apply binary_part_given; auto].
    unfold binary_part. rewrite !null_dflt by discriminate. apply named_name.
  - rewrite smooth_part_binary, B', T. f_equal.
    rewrite (grf_base_fixed cls (smooth_part (grf_base cls p))) by (intros k H; apply smooth_part_given; auto).
    apply smooth_part_fixed; [|intros k H; apply smooth_part_given; auto].
    unfold smooth_part. rewrite !null_dflt by discriminate. apply named_name.
Qed.
Lemma grf_keeps cls p p' : scalar_grf_defaults cls p = Ok p' -> keeps_known p p'.
Proof.
  rewrite grf_form. destruct (sget p "binary") as [b|]; [|discriminate]. intros [= <-].
  destruct (py_true b); [unfold binary_part | unfold smooth_part]; kd; apply known_named, keeps_known_keeps, grf_base_keeps.
Qed.
Lemma grf_fills cls p p' b : scalar_grf_defaults cls p = Ok p' -> sget p "binary" = Some b ->
  forall k, In k base_required \/ In k (grf_required (py_true b)) -> given p' k = true.
Proof.
  rewrite grf_form. intros E B k H. rewrite B in E. injection E as <-. unfold grf_required in H.
  destruct (py_true b).
  - apply binary_part_given. destruct H as [H|H]; [right; apply grf_base_given, in_or_app; auto|].
    cbn in H. destruct H as [<-|[<-|[<-|H]]]; try (right; apply grf_base_given; cbn; tauto). left. cbn. tauto.
  - apply smooth_part_given. destruct H as [H|H]; [right; apply grf_base_given, in_or_app; auto|].
    cbn in H. destruct H as [<-|[<-|[<-|H]]]; try (right; apply grf_base_given; cbn; tauto). left. cbn. tauto.
Qed.

(** ** Vector random fields *)
Lemma sget_named s p : sget (named s p) "data_name" =
  match sget p "data_name" with Some JNull => Some (JStr s) | x => x end.
Proof. unfold named, is_null. destruct (sget p "data_name") as [[]|] eqn:E; rewrite ?sget_sset; auto. Qed.

Definition vec_part (p : params) (i : nat) : res json :=
  match sget p "data_name" with
  | Some (JStr s) => match nth_error (split "," s) i with Some x => Ok (JStr x) | None => Err IndexError end
  | _ => Err AttributeError
  end.
Definition vec_step (k : string) (x : res json) (p : params) : res params :=
  if given p k then Ok p else v <- x ;; Ok (sset p k v).
Lemma vgrf_form cls p : vector_grf_defaults cls p =
  (let n := named "uC,vC" (grf_base cls p) in
   a <- vec_step "vec_x" (vec_part n 0) n ;; b <- vec_step "vec_y" (vec_part n 1) a ;;
   Ok (dflt "max" (JInt 10) (dflt "min" (JInt 0) b))).
Proof. reflexivity. Qed.
Lemma vec_step_given k x p q : vec_step k x p = Ok q -> given q k = true /\ (forall k', given p k' = true -> given q k' = true) /\ keeps p q /\
  (forall k', k' <> k -> sget q k' = sget p k').
Proof.
  unfold vec_step. destruct (given p k) eqn:E.
  - intros [= <-]. split; [exact E|]. split; [auto|]. split; [apply keeps_refl | auto].
  - destruct x as [v|]; cbn; [|discriminate]. intros [= <-]. split; [rewrite given_sset, seqb_refl; reflexivity|].
    split; [intros k' H; rewrite given_sset, H, orb_true_r; reflexivity|].
    split.
    + intros k' y H. rewrite sget_sset. destruct (String.eqb_spec k' k) as [->|]; [|exact H].
      unfold given in E. rewrite H in E. discriminate.
    + intros k' N. rewrite sget_sset. destruct (String.eqb_spec k' k); [contradiction | reflexivity].
Qed.
Lemma vgrf_facts cls p p' : vector_grf_defaults cls p = Ok p' ->
  keeps_known p p' /\ (forall k, In k base_required \/ In k vector_grf_required -> given p' k = true) /\
  is_null p' "data_name" = false.
Proof.
  rewrite vgrf_form. cbv zeta. set (n := named "uC,vC" (grf_base cls p)).
  destruct (vec_step "vec_x" (vec_part n 0) n) as [a|] eqn:A; cbn [bind]; [|discriminate].
  destruct (vec_step "vec_y" (vec_part n 1) a) as [b|] eqn:B; cbn [bind]; [|discriminate]. intros [= <-].
  apply vec_step_given in A. destruct A as (A1 & A2 & A3 & A4). apply vec_step_given in B. destruct B as (B1 & B2 & B3 & B4).
  assert (Kn : keeps_known p n) by (apply known_named, keeps_known_keeps, grf_base_keeps).
  split; [|split].
  - kd. intros k v E N. apply B3, A3, Kn; auto.
  - intros k H. rewrite !given_dflt.
    assert (G : In k grf_required0 -> given b k = true) by (intros I; apply B2, A2, named_given, grf_base_given; exact I).
    destruct H as [H|H]; [rewrite G, !orb_true_r by (apply in_or_app; auto); reflexivity|].
    cbn in H. destruct H as [<-|[<-|[<-|[<-|[<-|[<-|[<-|[]]]]]]]];
      try (rewrite G, !orb_true_r by (cbn; tauto); reflexivity).
    + rewrite (B2 _ A1). reflexivity.
    + rewrite B1. reflexivity.
    + rewrite seqb_refl, !orb_true_r. reflexivity.
    + reflexivity.
  - rewrite !null_dflt by discriminate. unfold is_null. rewrite B4, A4 by discriminate. apply named_name.
Qed.
Lemma vgrf_idempotent cls p p' : vector_grf_defaults cls p = Ok p' -> vector_grf_defaults cls p' = Ok p'.
Proof.
  intros E. destruct (vgrf_facts cls p p' E) as (_ & G & N). rewrite vgrf_form. cbv zeta.
  rewrite (grf_base_fixed cls p').
  2:{ intros k H. apply in_app_or in H. apply G. destruct H as [H|H]; [auto|]. right. cbn in H |- *. tauto. }
  rewrite (named_fixed "uC,vC" p' N). unfold vec_step.
  rewrite (G "vec_x") by (cbn; auto 20). cbn [bind]. rewrite (G "vec_y") by (cbn; auto 20). cbn [bind].
  rewrite (dflt_given "min"), (dflt_given "max"); try reflexivity; apply G; cbn; auto 20.
Qed.

(** ** AMSR *)
Lemma amsr_facts cls p p' : amsr_defaults cls p = Ok p' ->
  keeps_but ["in_proj"; "x_col"; "y_col"] p p' /\ (forall k, In k base_required -> given p' k = true) /\
  exists h v, sget p "hemisphere" = Some (JStr h) /\
    ((lower h = "north" /\ v = JStr "EPSG:3411") \/ (lower h = "south" /\ v = JStr "EPSG:3412")) /\
    p' = sset (sset (sset (base_defaults cls p) "in_proj" v) "x_col" (JStr "x")) "y_col" (JStr "y").
Proof.
  unfold amsr_defaults. cbv zeta.
  assert (Eh : sget (base_defaults cls p) "hemisphere" = sget p "hemisphere").
  { unfold base_defaults. cbv zeta. repeat (rewrite sget_dflt; cbn [String.eqb Ascii.eqb Bool.eqb]). reflexivity. }
  rewrite Eh. destruct (sget p "hemisphere") as [[]|]; try discriminate. intros E.
  assert (X : exists v, ((lower s = "north" /\ v = JStr "EPSG:3411") \/ (lower s = "south" /\ v = JStr "EPSG:3412")) /\
    p' = sset (sset (sset (base_defaults cls p) "in_proj" v) "x_col" (JStr "x")) "y_col" (JStr "y")).
  { revert E. destruct (String.eqb_spec (lower s) "north"); [|destruct (String.eqb_spec (lower s) "south"); [|discriminate]];
      intros [= <-]; eexists; (split; [|reflexivity]); auto. }
  destruct X as (v & V & ->). split; [|split; [|eauto 10]].
  - repeat (apply keeps_but_sset; [cbn; tauto|]). apply keeps_keeps_but, base_keeps.
  - intros k H. rewrite !given_sset, (base_given cls p k H), !orb_true_r. reflexivity.
Qed.
Lemma amsr_idempotent cls p p' : amsr_defaults cls p = Ok p' -> amsr_defaults cls p' = Ok p'.
Proof.
  intros E. destruct (amsr_facts cls p p' E) as (_ & G & h & v & H & V & P).
  unfold amsr_defaults. rewrite (base_fixed cls p' G). cbv zeta.
  assert (Eh : sget p' "hemisphere" = Some (JStr h)).
  { rewrite P, !sget_sset. cbn [String.eqb Ascii.eqb Bool.eqb]. apply base_keeps. exact H. }
  rewrite Eh.
  assert (S : sset (sset (sset p' "in_proj" v) "x_col" (JStr "x")) "y_col" (JStr "y") = p').
  { assert (E1 : sset p' "in_proj" v = p') by (apply sset_same; rewrite P, !sget_sset; reflexivity).
    assert (E2 : sset p' "x_col" (JStr "x") = p') by (apply sset_same; rewrite P, !sget_sset; reflexivity).
    assert (E3 : sset p' "y_col" (JStr "y") = p') by (apply sset_same; rewrite P, !sget_sset; reflexivity).
    rewrite E1, E2, E3. reflexivity. }
  destruct V as [(-> & ->)|(-> & ->)]; cbn [String.eqb Ascii.eqb Bool.eqb]; rewrite S; reflexivity.
Qed.

(** ** All classes *)
Theorem defaults_idempotent cls p p' : add_default_params cls p = Ok p' -> add_default_params cls p' = Ok p'.
Proof.
  unfold add_default_params.
  destruct (String.eqb cls "ShapeDataLoader"); [intros [= <-]; f_equal; apply shape_idempotent|].
  destruct (String.eqb cls "VectorShapeDataLoader"); [intros [= <-]; f_equal; apply vshape_idempotent|].
  destruct (String.eqb cls "ScalarGRFDataLoader"); [apply grf_idempotent|].
  destruct (String.eqb cls "VectorGRFDataLoader"); [apply vgrf_idempotent|].
  destruct (String.eqb cls "AMSRDataLoader"); [apply amsr_idempotent|].
  destruct (String.eqb cls "LutGeoJSON" || String.eqb cls "LutShapefile").
  { intros [= <-]. f_equal. rewrite !lut_file_same. apply lut_fixed. intros k. apply lut_given. }
  destruct (existsb (String.eqb cls) lut_classes); intros [= <-]; f_equal.
  - apply lut_fixed. intros k. apply lut_given.
  - apply base_fixed. intros k. apply base_given.
Qed.
Theorem defaults_keep cls p p' : ~ In cls special -> add_default_params cls p = Ok p' -> keeps p p'.
Proof.
  intros N. unfold add_default_params.
  repeat match goal with |- context [String.eqb cls ?s] =>
    destruct (String.eqb_spec cls s) as [->|]; [try (exfalso; apply N; cbn; tauto)|] end; cbn [orb];
  try (intros [= <-]; rewrite lut_file_same; apply lut_keeps).
  destruct (existsb (String.eqb cls) lut_classes); intros [= <-]; [apply lut_keeps | apply base_keeps].
Qed.

(** ** The factory *)
Lemma lower_same a b : same_letter a b -> lower_char a = lower_char b.
Proof.
  intros [->|(i & Hi & [(-> & ->)|(-> & ->)])]; [reflexivity| |];
    do 26 (destruct i as [|i]; [reflexivity|]); lia.
Qed.
Lemma lower_same_name s t : same_name s t -> lower s = lower t.
Proof.
  revert t. induction s as [|a s IH]; intros [|b t]; cbn; try tauto. intros (A & B).
  f_equal; [apply lower_same; exact A | apply IH; exact B].
Qed.
Theorem factory_case glob n n' p k : same_name n n' -> get_dataloader glob n p k = get_dataloader glob n' p k.
Proof. intros H. unfold get_dataloader. rewrite (lower_same_name _ _ H). reflexivity. Qed.

Lemma sget_in {V} (d : sdict V) k v : sget d k = Some v -> In (k, v) d.
Proof.
  induction d as [|[a x] d IH]; cbn; [discriminate|].
  destruct (String.eqb_spec k a) as [->|]; [intros [= ->]; auto | auto].
Qed.
Lemma sget_none {V} (d : sdict V) k : sget d k = None <-> ~ In k (map fst d).
Proof.
  induction d as [|[a x] d IH]; cbn; [tauto|].
  destruct (String.eqb_spec k a) as [->|].
  - split; [discriminate | intros H; exfalso; apply H; auto].
  - rewrite IH. split; [intros H [H'|H']; [congruence | auto] | auto].
Qed.
Lemma nodup_str (l : list string) : (fix nd l := match l with [] => true | x :: l' => negb (existsb (String.eqb x) l') && nd l' end) l = true -> NoDup l.
Proof.
  induction l as [|x l IH]; intros H; constructor; apply andb_prop in H; destruct H as (H1 & H2); [|auto].
  intros I. apply negb_true_iff in H1. assert (X : existsb (String.eqb x) l = true) by (apply existsb_exists; exists x; split; [exact I | apply seqb_refl]).
  congruence.
Qed.
Lemma requirements_nodup : NoDup (map fst requirements).
Proof. apply nodup_str. vm_compute. reflexivity. Qed.
Lemma sget_in_nodup {V} (d : sdict V) k v : NoDup (map fst d) -> In (k, v) d -> sget d k = Some v.
Proof.
  induction d as [|[a x] d IH]; cbn; [tauto|]. intros N [E|E].
  - injection E as -> ->. rewrite seqb_refl. reflexivity.
  - inversion N; subst. destruct (String.eqb_spec k a) as [->|]; [|auto].
    exfalso. apply H1. apply (in_map fst) in E. exact E.
Qed.
(** No loader requires the parameters the factory sets itself. *)
Lemma required_plain name cls req k : In (name, (cls, req)) requirements -> In k req -> k <> "dataloader_name" /\ k <> "min_dp".
Proof.
  intros H K. assert (X : forallb (fun e => forallb (fun r => negb (String.eqb r "dataloader_name") && negb (String.eqb r "min_dp")) (snd (snd e))) requirements = true)
    by (vm_compute; reflexivity).
  rewrite forallb_forall in X. specialize (X _ H). cbn in X. rewrite forallb_forall in X. specialize (X _ K).
  apply andb_prop in X. destruct X as (A & B). split; intros ->; discriminate.
Qed.
Theorem factory_spec glob name p k q : translate_file_input glob p = Ok q ->
  (forall cls req, In (lower name, (cls, req)) requirements -> (forall r, In r req -> sget q r <> None) ->
     exists p', get_dataloader glob name p k = Ok (cls, p') /\
       sget p' "dataloader_name" = Some (JStr (lower name)) /\ sget p' "min_dp" = Some (JInt k) /\
       forall x, x <> "dataloader_name" -> x <> "min_dp" -> sget p' x = sget q x) /\
  (forall cls req r, In (lower name, (cls, req)) requirements -> In r req -> sget q r = None ->
     get_dataloader glob name p k = Err AssertionError) /\
  (~ In (lower name) (map fst requirements) -> get_dataloader glob name p k = Err ValueError).
Proof.
  intros T. unfold get_dataloader. rewrite T. cbn [bind].
  set (p1 := sset (sset q "dataloader_name" (JStr (lower name))) "min_dp" (JInt k)).
  assert (O : forall x, x <> "dataloader_name" -> x <> "min_dp" -> sget p1 x = sget q x).
  { intros x A B. unfold p1. rewrite !sget_sset. destruct (String.eqb_spec x "min_dp"); [contradiction|].
    destruct (String.eqb_spec x "dataloader_name"); [contradiction | reflexivity]. }
  split; [|split].
  - intros cls req I G. rewrite (sget_in_nodup _ _ _ requirements_nodup I).
    assert (F : forallb (given p1) req = true).
    { apply forallb_forall. intros r Hr. destruct (required_plain _ _ _ _ I Hr) as (A & B).
      apply given_some. rewrite O by auto. apply G. exact Hr. }
    rewrite F. exists p1. split; [reflexivity|]. unfold p1 at 1 2. rewrite !sget_sset. cbn [String.eqb Ascii.eqb Bool.eqb]. auto.
  - intros cls req r I Hr E. rewrite (sget_in_nodup _ _ _ requirements_nodup I).
    assert (F : forallb (given p1) req = false).
    { destruct (forallb (given p1) req) eqn:F; [|reflexivity]. rewrite forallb_forall in F. specialize (F _ Hr).
      destruct (required_plain _ _ _ _ I Hr) as (A & B). apply given_some in F. rewrite O in F by auto. contradiction. }
    rewrite F. reflexivity.
  - intros N. apply sget_none in N. rewrite N. reflexivity.
Qed.

#[local] Transparent sset dflt.
(** ** Normalising the file inputs *)
Lemma sget_sdel d k k' : dict_ok d -> sget (sdel d k) k' = if String.eqb k' k then None else sget d k'.
Proof.
  unfold dict_ok. induction d as [|[a x] d IH]; cbn; intros N.
  - destruct (String.eqb k' k); reflexivity.
  - apply NoDup_cons_iff in N. destruct N as (N1 & N2). destruct (String.eqb_spec k a) as [E|E].
    + subst a. destruct (String.eqb_spec k' k) as [E'|E']; [|reflexivity]. subst k'. apply sget_none. exact N1.
    + cbn. rewrite (IH N2). destruct (String.eqb_spec k' a) as [E'|E']; [|reflexivity]. subst k'.
      destruct (String.eqb_spec a k); [congruence | reflexivity].
Qed.
Lemma sset_keys {V} (d : sdict V) k v : forall x, In x (map fst (sset d k v)) <-> x = k \/ In x (map fst d).
Proof.
  induction d as [|[a y] d IH]; cbn; intros x; [intuition auto|].
  destruct (String.eqb_spec k a) as [->|]; cbn; [intuition auto|]. rewrite IH. intuition auto.
Qed.
Lemma sset_ok (d : params) k v : dict_ok d -> dict_ok (sset d k v).
Proof.
  unfold dict_ok. induction d as [|[a y] d IH]; cbn; intros N; [repeat constructor; auto|].
  inversion N; subst. destruct (String.eqb_spec k a) as [->|]; cbn; [exact N|].
  constructor; [|auto]. rewrite sset_keys. intuition congruence.
Qed.
Lemma translate_spec glob p q : dict_ok p -> translate_file_input glob p = Ok q ->
  (forall x, ~ In x ["file"; "folder"; "files"] -> sget q x = sget p x) /\
  sget q "file" = None /\
  match sget p "file", sget p "folder" with
  | Some f, d => sget q "files" = Some (JArr [f]) /\ sget q "folder" = d
  | None, Some d => exists s, d = JStr s /\ sget q "files" = Some (JArr (map JStr (glob (join_slash s ++ "*")))) /\ sget q "folder" = None
  | None, None => q = p
  end.
Proof.
  intros D. unfold translate_file_input.
  assert (DS : forall v, dict_ok (sset p "files" v)) by (intros v; apply sset_ok; exact D).
  destruct (sget p "file") as [f|] eqn:F.
  - intros [= <-]. split; [|split; [|split]].
    + intros x N. rewrite sget_sdel, sget_sset by auto.
      destruct (String.eqb_spec x "file") as [->|]; [exfalso; apply N; cbn; auto|].
      destruct (String.eqb_spec x "files") as [->|]; [exfalso; apply N; cbn; auto | reflexivity].
    + rewrite sget_sdel by auto. reflexivity.
    + rewrite sget_sdel, sget_sset by auto. reflexivity.
    + rewrite sget_sdel, sget_sset by auto. reflexivity.
  - destruct (sget p "folder") as [d|] eqn:G.
    + destruct d; try discriminate. intros [= <-]. split; [|split].
      * intros x N. rewrite sget_sdel, sget_sset by auto.
        destruct (String.eqb_spec x "folder") as [->|]; [exfalso; apply N; cbn; auto|].
        destruct (String.eqb_spec x "files") as [->|]; [exfalso; apply N; cbn; auto | reflexivity].
      * rewrite sget_sdel, sget_sset by auto. exact F.
      * exists s. split; [reflexivity|]. split; rewrite sget_sdel, sget_sset by auto; reflexivity.
    + intros [= <-]. split; [auto|]. split; [exact F | reflexivity].
Qed.
Theorem translate_twice glob p q : dict_ok p -> sget p "file" = None \/ sget p "folder" = None ->
  translate_file_input glob p = Ok q -> translate_file_input glob q = Ok q.
Proof.
  intros D N E. destruct (translate_spec glob p q D E) as (_ & F & S).
  assert (G : sget q "folder" = None).
  { destruct (sget p "file"); [|destruct (sget p "folder") eqn:G].
    - destruct N as [N|N]; [discriminate|]. rewrite N in S. tauto.
    - destruct S as (s & _ & _ & S). exact S.
    - subst q. exact G. }
  unfold translate_file_input. rewrite F, G. reflexivity.
Qed.

(** ** The table *)
Lemma required_spec name cls req r : In (name, (cls, req)) requirements -> (In r req <-> needs name r).
Proof.
  assert (F : Forall (fun e => forall r, In r (snd (snd e)) <-> needs (fst e) r) requirements).
  { unfold requirements, needs, fileless. repeat (constructor; [cbn [fst snd In]; intros x; intuition (subst; try discriminate; auto); fail|]). constructor. }
  rewrite Forall_forall in F. intros H. apply (F _ H).
Qed.
Lemma class_spec name cls : In (name, cls) classes <-> exists req, In (name, (cls, req)) requirements.
Proof.
  assert (E : classes = map (fun e => (fst e, fst (snd e))) requirements) by reflexivity.
  rewrite E, in_map_iff. split.
  - intros ([n [c r]] & [= -> ->] & H). eauto.
  - intros (r & H). exists (name, (cls, r)). auto.
Qed.

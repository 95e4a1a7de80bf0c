(** Proofs about whole vector sources (C88). *)
From Verif Require Import Base Geo Graph Cell Loaders AddLoader VecLoader Builder Env Spec MeshSpec EnvSpec DataSpec QLib Construct ConstructSpec Names PyStr StrLib Dates DateSpec Config ConfigSpec Params ParamSpec
  Downsample Files FilesSpec Import ImportSpec Reproject ReprojectSpec Pipeline PipeSpec Sources SourcesSpec VecHomSpec MixSpec VecSources VecSourcesSpec
  TrimProofs XrProofs ConstructProofs ParamProofs FilesProofs NamesProofs ImportProofs ReprojectProofs PipeProofs SourcesProofs MixProofs.
From Verif Require Import PropsFiles PropsImport PropsReproject PropsNames.
From Verif Require NamesSpec.
From Coq Require Import Sorting.Sorted.
Open Scope string_scope.
Open Scope Z_scope.

(** ** Names *)
Lemma no_comma_chars n : no_comma n -> NamesSpec.no_comma n.
Proof.
  intros H I. assert (X : exists a b, n = (a ++ "," ++ b)%string); [|destruct X as (a & b & ->); exact (H a b eq_refl)].
  clear H. induction n as [|c n IH]; [destruct I|]. cbn in I. destruct I as [->|I]; [exists "", n; reflexivity|].
  destruct (IH I) as (a & b & ->). exists (String c a), b. reflexivity.
Qed.
Lemma join_comma a b l : exists u w, String.concat "," (a :: b :: l) = (u ++ "," ++ w)%string.
Proof. exists a, (String.concat "," (b :: l)). reflexivity. Qed.
Lemma standard_coordinate n : standard n = true <-> a_coordinate n.
Proof. rewrite standard_iff. unfold a_coordinate. cbn. intuition. Qed.
Lemma nonstandard n : ~ a_coordinate n -> standard n = false.
Proof. intros H. destruct (standard n) eqn:E; [|reflexivity]. exfalso. apply H, standard_coordinate, E. Qed.
Lemma two_names (l : list string) : List.length l = 2%nat -> exists a b, l = [a; b].
Proof. destruct l as [|a [|b [|c l]]]; try discriminate. eauto. Qed.

(** ** Tables *)
Definition data_columns (t : dframe) : list (list entry) := map snd (filter (fun c => negb (standard (fst c))) t).
Lemma columns_of (t : dframe) {B} (g : option (list entry) -> B) : NoDup (map fst t) -> map (fun n => g (sget t n)) (data_names t) = map (fun l => g (Some l)) (data_columns t).
Proof.
  unfold data_names, data_columns. intros N. assert (X : forall u, (forall c, In c u -> In c t) -> map (fun n => g (sget t n)) (filter (fun n => negb (standard n)) (map fst u)) = map (fun l => g (Some l)) (map snd (filter (fun c => negb (standard (fst c))) u))).
  { induction u as [|[n l] u IH]; intros H; [reflexivity|]. cbn [map filter fst]. destruct (negb (standard n)); [|apply IH; intros; apply H; right; assumption].
    cbn [map snd]. rewrite (in_sget t n l N) by (apply H; left; reflexivity). f_equal. apply IH. intros; apply H; right; assumption. }
  apply X. auto.
Qed.
Lemma renamed_names news t t' : NamesSpec.renamed news t t' -> (forall n, In n news -> standard n = false) ->
  data_names (t' : dframe) = news /\ data_columns t' = data_columns t /\ (forall c, standard c = true -> sget t' c = sget t c) /\
  (forall c, In c (map fst t') -> In c news \/ (standard c = true /\ In c (map fst t))) /\ n_rows t' = n_rows t.
Proof.
  intros R. induction R as [|l n c t t' P R IH|l n m c t t' P R IH]; intros S.
  - repeat split; auto.
  - destruct IH as (I1 & I2 & I3 & I4 & I5); auto. assert (Sn : standard n = true) by (destruct (standard_spec n); auto; contradiction).
    unfold data_names, data_columns in *. cbn [map filter fst snd]. rewrite Sn. cbn [negb]. repeat split; auto.
    + intros e He. cbn [sget]. destruct (String.eqb e n); auto.
    + intros e [<-|I]; [right; split; [exact Sn|left; reflexivity]|]. destruct (I4 e I) as [H|[H1 H2]]; [left; exact H|right; split; [exact H1|right; exact H2]].
  - destruct IH as (I1 & I2 & I3 & I4 & I5); [intros; apply S; right; auto|]. assert (Sn : standard n = false) by (destruct (standard_spec n); auto; contradiction).
    assert (Sm : standard m = false) by (apply S; left; reflexivity).
    unfold data_names, data_columns in *. cbn [map filter fst snd]. rewrite Sn, Sm. cbn [negb map snd]. rewrite I1, I2. repeat split; auto.
    + intros e He. cbn [sget]. destruct (String.eqb_spec e n) as [->|]; [congruence|]. destruct (String.eqb_spec e m) as [->|]; [congruence|]. auto.
    + intros e [<-|I]; [left; left; reflexivity|]. destruct (I4 e I) as [H|[H1 H2]]; [left; right; exact H|right; split; [exact H1|right; exact H2]].
Qed.
Lemma renamed_nodup news t t' : NamesSpec.renamed news t t' -> (forall n, In n news -> standard n = false) -> NoDup news -> NoDup (map fst t) -> NoDup (map fst (t' : dframe)).
Proof.
  intros R. induction R as [|l n c t t' P R IH|l n m c t t' P R IH]; intros S N T; [constructor| |].
  - cbn [map fst] in *. inversion T; subst. constructor; [|apply IH; auto]. intros I. destruct (renamed_names _ _ _ R S) as (_ & _ & _ & I4 & _).
    destruct (I4 n I) as [H|[_ H]]; [|contradiction]. apply S in H. destruct (standard_spec n); [discriminate|contradiction].
  - cbn [map fst] in *. inversion T; subst. inversion N; subst. constructor; [|apply IH; auto; intros; apply S; right; auto].
    intros I. destruct (renamed_names _ _ _ R (fun n H => S n (or_intror H))) as (_ & _ & _ & I4 & _). destruct (I4 m I) as [H|[H _]]; [contradiction|].
    rewrite (S m (or_introl eq_refl)) in H. discriminate.
Qed.
Lemma renamed_points news t t' : NamesSpec.renamed news t t' -> (forall n, In n news -> standard n = false) -> NoDup news -> NoDup (map fst t) -> table_points t' = table_points t.
Proof.
  intros R S N T. destruct (renamed_names _ _ _ R S) as (I1 & I2 & I3 & _ & I5). assert (T' := renamed_nodup _ _ _ R S N T). unfold table_points. rewrite I5.
  apply map_ext. intros k. unfold row_point. rewrite !I3 by reflexivity. f_equal.
  pose proof (columns_of t' (fun o => num match o with Some l => nth k l (ENum None) | None => ENum None end) T') as A.
  pose proof (columns_of t (fun o => num match o with Some l => nth k l (ENum None) | None => ENum None end) T) as B. rewrite I2 in A. cbn beta in A, B.
  etransitivity; [exact A|]. symmetry. exact B.
Qed.

(** A table column by column. *)
Definition vfield (cols : list string) (c : string) (p : point) : entry :=
  if String.eqb c "lat" then ENum (Some (p_lat p)) else if String.eqb c "long" then ENum (Some (p_long p))
  else if String.eqb c "time" then match p_time p with Some z => EDay z | None => ENum None end
  else ENum (match sget (combine cols (p_vals p)) c with Some v => v | None => None end).
Definition vfields (dated : bool) (cols : list string) (t : dframe) (d : data) : Prop :=
  NoDup (map fst t) /\ (forall c, In c (map fst t) <-> c = "lat" \/ c = "long" \/ In c cols \/ (dated = true /\ c = "time")) /\
  (forall c, In c (map fst t) -> sget t c = Some (map (vfield cols c) d)) /\
  forall p, In p d -> List.length (p_vals p) = List.length cols /\ if dated then exists z, p_time p = Some z else p_time p = None.
Definition plain_cols (cols : list string) : Prop := NoDup cols /\ forall c, In c cols -> standard c = false.
Lemma vfield_col cols c p : standard c = false -> vfield cols c p = ENum (match sget (combine cols (p_vals p)) c with Some v => v | None => None end).
Proof.
  unfold standard, vfield. destruct (String.eqb c "lat"), (String.eqb c "long"), (String.eqb c "time"); cbn; try discriminate. reflexivity.
Qed.
Lemma Forall2_at {A B} (R : A -> B -> Prop) l l' : Forall2 R l l' -> forall a, In a l -> exists i b, nth_error l i = Some a /\ nth_error l' i = Some b /\ R a b.
Proof.
  intros F. induction F as [|x y l l' H F IH]; intros a I; [destruct I|]. destruct I as [->|I]; [exists 0%nat, y; auto|].
  destruct (IH a I) as (i & b & E1 & E2 & H'). exists (S i), b. auto.
Qed.
Lemma sget_combine cols (vs : list (option Q)) i c v : NoDup cols -> nth_error cols i = Some c -> nth_error vs i = Some v -> sget (combine cols vs) c = Some v.
Proof.
  intros N. revert vs i. induction cols as [|a cols IH]; intros [|w vs] [|i] E1 E2; try discriminate; cbn in *.
  - injection E1 as ->. injection E2 as ->. rewrite String.eqb_refl. reflexivity.
  - inversion N; subst. destruct (String.eqb_spec c a) as [->|]; [exfalso; apply H1; eapply nth_error_In; eauto|]. eapply IH; eauto.
Qed.
Lemma vholds_fields dated cols t d : plain_cols cols -> vector_holds dated cols t d -> vfields dated cols t d.
Proof.
  intros [Nc Pc] ((N & W) & C & H). split; [exact N|]. split; [exact C|]. split.
  - intros c Ic. apply in_map_iff in Ic. destruct Ic as ([c' l] & X & I). cbn in X. subst c'. rewrite (in_sget t c l N I). f_equal.
    assert (U : forall k e, entry_at t k c e -> nth_error l k = Some e).
    { intros k e (l' & I' & E). apply (in_sget t c l' N) in I'. rewrite (in_sget t c l N I) in I'. injection I' as <-. exact E. }
    apply nth_error_ext_map; [apply (W c), I|]. intros k p E. apply U. destruct (H k p E) as (H1 & H2 & H3 & H4).
    assert (Cc : In c (map fst t)) by (apply in_map_iff; exists (c, l); auto). apply C in Cc.
    destruct Cc as [->|[->|[Cc|[-> ->]]]].
    + exact H1.
    + exact H2.
    + rewrite vfield_col by auto. destruct (Forall2_at _ _ _ H4 c Cc) as (i & v & E1 & E2 & H5). rewrite (sget_combine _ _ i c v Nc E1 E2). exact H5.
    + unfold vfield. cbn [String.eqb Ascii.eqb Bool.eqb]. destruct H3 as (z & -> & H3). exact H3.
  - intros p I. apply In_nth_error in I. destruct I as (k & E). destruct (H k p E) as (_ & _ & H3 & H4). split; [clear - H4; induction H4; cbn; congruence|].
    destruct dated; [destruct H3 as (z & Z & _); eauto|exact H3].
Qed.
Lemma sget_row cols : NoDup cols -> forall vs : list (option Q), List.length vs = List.length cols -> map (fun c => match sget (combine cols vs) c with Some v => v | None => None end) cols = vs.
Proof.
  induction cols as [|a cols IH]; intros N [|v vs] L; try discriminate; [reflexivity|]. inversion N; subst. cbn [combine map sget]. rewrite String.eqb_refl. f_equal.
  injection L as L. etransitivity; [|apply (IH H2 vs L)]. apply map_ext_in. intros c I. destruct (String.eqb_spec c a) as [->|]; [contradiction|reflexivity].
Qed.
Lemma vfields_points dated cols t d : plain_cols cols -> data_names t = cols -> vfields dated cols t d -> table_points t = d.
Proof.
  intros [Nc Pc] D (N & C & G & V). unfold table_points.
  assert (R : n_rows t = List.length d).
  { destruct t as [|[c l] t]; [exfalso; apply (proj2 (C "lat")); auto|]. cbn [n_rows snd]. assert (X : sget ((c, l) :: t) c = Some l) by (cbn; rewrite String.eqb_refl; reflexivity).
    rewrite (G c) in X by (left; reflexivity). injection X as <-. apply map_length. }
  rewrite R. rewrite <- (map_id d) at 2.
  apply nth_error_ext_map; [rewrite map_length, seq_length; reflexivity|]. intros k p E.
  assert (K : (k < List.length d)%nat) by (apply nth_error_Some; congruence).
  rewrite nth_error_map, (nth_error_nth' (seq 0 (List.length d)) 0%nat) by (rewrite seq_length; exact K). rewrite seq_nth by exact K. cbn [option_map]. f_equal.
  unfold row_point. rewrite D.
  assert (Sg : forall c, In c (map fst t) -> match sget t c with Some l => nth (0 + k) l (ENum None) | None => ENum None end = vfield cols c p).
  { intros c Ic. rewrite (G c Ic). apply nth_error_nth. rewrite nth_error_map. cbn [Nat.add]. rewrite E. reflexivity. }
  rewrite (Sg "lat"), (Sg "long") by (apply C; auto).
  destruct (V p (nth_error_In _ _ E)) as (Le & Te).
  assert (Fc : map (fun n => num match sget t n with Some l => nth (0 + k) l (ENum None) | None => ENum None end) cols = p_vals p).
  { rewrite <- (sget_row cols Nc (p_vals p) Le) at 1. apply map_ext_in. intros c Ic. rewrite Sg by (apply C; auto). rewrite vfield_col by auto. reflexivity. }
  rewrite Fc. unfold vfield. cbn [String.eqb Ascii.eqb Bool.eqb num].
  assert (Ft : match match sget t "time" with Some l => nth (0 + k) l (ENum None) | None => ENum None end with EDay z => Some z | ENum _ => None end = p_time p).
  { destruct dated.
    - rewrite (Sg "time") by (apply C; auto). destruct Te as (z & Te). unfold vfield. cbn [String.eqb Ascii.eqb Bool.eqb]. rewrite Te. reflexivity.
    - destruct (sget t "time") eqn:St; [|rewrite Te; reflexivity]. exfalso. assert (It : In "time" (map fst t)) by (apply ParamProofs.sget_in in St; apply in_map_iff; eexists; split; [|exact St]; reflexivity).
      apply C in It. destruct It as [It|[It|[It|[It _]]]]; try discriminate. apply Pc in It. discriminate. }
  rewrite Ft. destruct p. reflexivity.
Qed.
Lemma filter_filter {A} (f g : A -> bool) l : filter f (filter g l) = filter (fun x => f x && g x) l.
Proof. induction l as [|x l IH]; [reflexivity|]. cbn. destruct (g x); cbn; rewrite ?andb_true_r, ?andb_false_r, IH; destruct (f x); reflexivity. Qed.
Lemma distinct_app l r : NoDup l -> distinct (l ++ r)%list = (l ++ filter (fun x => negb (existsb (String.eqb x) l)) (distinct r))%list.
Proof.
  induction l as [|a l IH]; intros N; cbn [app existsb negb].
  - assert (X : forall m : list string, m = filter (fun _ => true) m) by (induction m as [|x m IH]; cbn; congruence). apply X.
  - inversion N; subst. cbn [distinct]. rewrite (IH H2), filter_app. f_equal. f_equal.
    + clear - H1. induction l as [|b l IH]; [reflexivity|]. cbn. destruct (String.eqb_spec b a) as [->|]; [exfalso; apply H1; left; reflexivity|]. cbn. f_equal. apply IH. intros X; apply H1; right; exact X.
    + rewrite filter_filter. apply filter_ext. intros x. rewrite negb_orb. reflexivity.
Qed.
Lemma distinct_sub l r : NoDup l -> (forall x, In x r -> In x l) -> distinct (l ++ r)%list = l.
Proof.
  intros N H. rewrite (distinct_app l r N). etransitivity; [|apply (app_nil_r l)]. f_equal.
  assert (X : forall x, In x (distinct r) -> In x l) by (intros x I; apply H, distinct_in, I). clear H. induction (distinct r) as [|x m IH]; [reflexivity|]. cbn.
  assert (E : existsb (String.eqb x) l = true) by (apply existsb_exists; exists x; split; [apply X; left; reflexivity|apply String.eqb_refl]). rewrite E. cbn. apply IH. intros; apply X; right; auto.
Qed.
Lemma concat_vfields dated cols t0 ts ds : Forall2 (vfields dated cols) (t0 :: ts) ds ->
  exists t, concat_tables (t0 :: ts) = Ok t /\ vfields dated cols t (List.concat ds) /\ map fst t = map fst t0.
Proof.
  intros F. unfold concat_tables. eexists. split; [reflexivity|].
  set (cs := List.concat (map (map fst) (t0 :: ts))). assert (M : map fst (map (fun c => (c, List.concat (map (part_of_column c) (t0 :: ts)))) (distinct cs)) = distinct cs).
  { rewrite map_map. cbn [fst]. apply map_id. }
  assert (C : forall c, In c cs <-> c = "lat" \/ c = "long" \/ In c cols \/ dated = true /\ c = "time").
  { intros c. unfold cs. rewrite in_concat. split.
    - intros (l & Il & Ic). apply in_map_iff in Il. destruct Il as (t & <- & It). destruct (Forall2_in_l _ _ _ _ F It) as (d & _ & (_ & C & _)). apply C, Ic.
    - intros H. inversion F as [|? d ? ? (_ & C & _)]; subst. exists (map fst t0). split; [left; reflexivity|apply C, H]. }
  assert (Dc : distinct cs = map fst t0).
  { inversion F as [|? d ? ? (N & C0 & _)]; subst. unfold cs. cbn [map List.concat]. apply distinct_sub; [exact N|]. intros x I. apply C0, C. unfold cs. cbn [map List.concat]. apply in_app_iff. right. exact I. }
  split; [|rewrite M; exact Dc].
  split; [rewrite M; apply distinct_nodup|]. split; [intros c; rewrite M, distinct_in; apply C|]. split.
  - intros c Ic. rewrite M in Ic. rewrite (sget_tab (fun c => List.concat (map (part_of_column c) (t0 :: ts)))) by exact Ic. f_equal. apply distinct_in, C in Ic. clear - F Ic.
    rewrite concat_map. f_equal. induction F as [|t d ts' ds (_ & C & G & _) F IH]; [reflexivity|]. cbn [map]. f_equal; [|exact IH].
    unfold part_of_column. rewrite (G c); [reflexivity|]. apply C, Ic.
  - intros p I. apply in_concat in I. destruct I as (d & Id & Ip). destruct (Forall2_in_r _ _ _ _ F Id) as (t & _ & (_ & _ & _ & V)). apply V, Ip.
Qed.
Lemma vfields_wf dated cols t d : vfields dated cols t d -> well_formed (List.length d) t.
Proof.
  intros (N & _ & G & _). split; [exact N|]. intros c l I. assert (X := in_sget t c l N I). rewrite (G c) in X by (apply in_map_iff; exists (c, l); auto).
  injection X as <-. apply map_length.
Qed.

(** ** Parameters *)
Definition stand_in (v : vfeed) : feed := mkFeed (String.concat "," (v_names v)) (v_xr v) (v_agg v) (v_min v) [] FillParent [].
Definition fit_names (names : list string) : Prop := NoDup names /\ forall n, In n names -> no_comma n.
Lemma split_back names : List.length names = 2%nat -> (forall n, In n names -> no_comma n) -> split "," (String.concat "," names) = names.
Proof. intros L C. apply (split_join ","%char ""); [destruct names; discriminate|]. intros s I. apply no_comma_chars, C, I. Qed.
Lemma vector_ready glob (src : string * params) min_dp name cls files cols v : same_name (fst src) name -> lower name = name -> In (name, (cls, ["files"])) requirements -> plain_class cls ->
  vector_settled (snd src) min_dp cols v -> lists_files glob (snd src) files ->
  exists p', given_to glob src min_dp cls p' /\ ready p' files src (String.concat "," cols) (stand_in v).
Proof.
  intros Sn Ln Rq Pc [D Na (T1 & T2) Cs Ag Kn Mi Pr (Xc & Yc) Fa Co Fi] Lf. eapply made_ready0; eauto. cbn [stand_in f_name].
  unfold vector_names in Na. unfold names. destruct (sget (snd src) "data_name") as [[]|]; try (rewrite Na; reflexivity);
    (destruct Na as [Na _]; split; [exact Na|]; destruct (two_names _ T2) as (a & c & ->); intros I; cbn [String.concat] in I;
     do 5 (try destruct a as [|? a]); cbn in I; intuition discriminate).
Qed.
Lemma given_names p min_dp cols v : vector_settled p min_dp cols v -> forall n, In n (v_names v) -> standard n = false.
Proof.
  intros [D Na T (Cn & Cs) Ag Kn Mi Pr XY Fa Co Fi] n I. apply nonstandard. unfold vector_names in Na.
  destruct (sget p "data_name") as [[]|]; try (rewrite Na in I; apply Cs, I); destruct Na as [_ Na]; apply Na, I.
Qed.
Lemma settled_cols p min_dp cols v : vector_settled p min_dp cols v -> plain_cols cols /\ forall c, In c cols -> NamesSpec.no_comma c.
Proof. intros [D Na T (Cn & Cs) Ag Kn Mi Pr XY Fa Co Fi]. split; [split; [exact Cn|]|]; intros c I; [apply nonstandard, Cs, I|apply no_comma_chars, Cs, I]. Qed.

(** ** Sources that agree but for data outside the region *)
Definition vagree (b : boundary) (v w : vfeed) : Prop :=
  v_names v = v_names w /\ v_xr v = v_xr w /\ v_agg v = v_agg w /\ v_min v = v_min w /\ v_conds v = v_conds w /\
  forall a pts, inside_region b a -> (selected (belongs a) (v_data v) pts <-> selected (belongs a) (v_data w) pts).
Definition sagree (b : boundary) (s t : source) : Prop :=
  match s, t with Scalar f, Scalar g => agree b f g | Vector v, Vector w => vagree b v w | _, _ => False end.
Lemma vagree_sym b v w : vagree b v w -> vagree b w v.
Proof. intros (A & B & C & D & E & G). repeat split; auto; intros; apply G; auto. Qed.
Lemma sagree_sym b s t : sagree b s t -> sagree b t s.
Proof. destruct s, t; cbn; try tauto; [apply agree_sym|apply vagree_sym]. Qed.
Lemma sagree_scalars b ss ts : Forall2 (sagree b) ss ts -> Forall2 (agree b) (scalars ss) (scalars ts).
Proof.
  intros F. induction F as [|s t ss ts A F IH]; [constructor|]. unfold scalars in *. cbn [flat_map]. destruct s, t; cbn in A; try contradiction; cbn [app]; [constructor; assumption|exact IH].
Qed.
Lemma sagree_vector b ss ts v : Forall2 (sagree b) ss ts -> In (Vector v) ss -> exists w, In (Vector w) ts /\ vagree b v w.
Proof. intros F I. destruct (Forall2_in_l _ _ _ _ F I) as ([g|w] & J & A); cbn in A; [contradiction|]. eauto. Qed.
Lemma vagree_component sq b v w i l o : vagree b v w -> (forall a, In a l -> inside_region b a) -> component_filled sq v i l o -> component_filled sq w i l o.
Proof.
  intros (A1 & A2 & A3 & A4 & A5 & D) I C.
  assert (O : forall a vs, inside_region b a -> own_vector sq v a vs -> own_vector sq w a vs).
  { intros a vs Ia (pts & S & E). exists pts. split; [apply D; assumption|]. rewrite <- A1, <- A2, <- A3. exact E. }
  induction C as [a l vs q Ow E|a l vs o Ow E C IH|].
  - eapply cf_own; [apply O; [apply I; left; reflexivity|exact Ow]|exact E].
  - eapply cf_parent; [apply O; [apply I; left; reflexivity|exact Ow]|exact E|apply IH; intros; apply I; right; auto].
  - apply cf_none.
Qed.
Lemma sagree_holds sq b ss ts l n o : Forall2 (sagree b) ss ts -> (forall a, In a l -> inside_region b a) -> MixSpec.holds sq ss l n o -> MixSpec.holds sq ts l n o.
Proof.
  intros F I [(v & i & q & Iv & N & C & E)|(No & W)].
  - left. destruct (sagree_vector b ss ts v F Iv) as (w & Iw & A). exists w, i, q. split; [exact Iw|]. split; [destruct A as (<- & _); exact N|]. split; [eapply vagree_component; eauto|exact E].
  - right. split.
    + intros w Iw. destruct (sagree_vector b ts ss w (Forall2_sym _ _ _ _ (sagree_sym b) F) Iw) as (v & Iv & (A & _)). rewrite A. apply No, Iv.
    + eapply agree_written; [apply sagree_scalars; exact F|exact I|exact W].
Qed.
Lemma sagree_says b ss ts a h : Forall2 (sagree b) ss ts -> inside_region b a -> source_says ss a h -> source_says ts a h.
Proof.
  intros F I [H|(v & c & pts & Iv & Ic & S & An)].
  - left. eapply agree_says; [apply sagree_scalars; exact F|exact I|exact H].
  - right. destruct (sagree_vector b ss ts v F Iv) as (w & Iw & (A1 & A2 & A3 & A4 & A5 & D)). exists w, c, pts. rewrite <- A1, <- A4, <- A5. split; [exact Iw|]. split; [exact Ic|]. split; [apply D; assumption|exact An].
Qed.
Lemma sagree_must b ss ts a : Forall2 (sagree b) ss ts -> inside_region b a -> (must_split ss a <-> must_split ts a).
Proof.
  intros F I. assert (F' := Forall2_sym _ _ _ _ (sagree_sym b) F). unfold must_split.
  assert (X : forall h, source_says ss a h <-> source_says ts a h) by (intros h; split; eapply sagree_says; eauto). rewrite !X. reflexivity.
Qed.
Lemma sagree_wanted sq b ss ts cw ch depth c : (long_min b < long_max b)%Q -> (0 < cw)%Q -> (0 < ch)%Q -> Forall2 (sagree b) ss ts ->
  as_wanted sq ss b cw ch depth c -> as_wanted sq ts b cw ch depth c.
Proof.
  intros L W H A (l & N & Le & S & NS & V). exists l.
  assert (I : forall a, In a (e_bounds c :: l) -> inside_region b a) by (intros a Ia; apply (nested_inside b cw ch _ L W H N a Ia)).
  split; [exact N|]. split; [exact Le|]. split; [|split].
  - intros b' Ib. destruct (S b' Ib) as (n & O). exists n. apply (sagree_must b _ _ b' (Forall2_firstn _ n _ _ A)); [apply I; right; exact Ib|exact O].
  - intros D O. apply (NS D). apply (sagree_must b _ _ (e_bounds c) A); [apply I; left; reflexivity|exact O].
  - intros n. eapply sagree_holds; eauto.
Qed.
(** Names and kinds. *)
Definition alike (s t : source) : Prop :=
  match s, t with Scalar f, Scalar g => f_name f = f_name g | Vector v, Vector w => v_names v = v_names w | _, _ => False end.
Lemma alike_names s t : alike s t -> names_of s = names_of t.
Proof. destruct s, t; cbn; try contradiction; congruence. Qed.
Lemma alike_sym s t : alike s t -> alike t s.
Proof. destruct s, t; cbn; congruence. Qed.
Lemma alike_apart ss ts : Forall2 alike ss ts -> names_apart ss -> names_apart ts.
Proof.
  intros F (A1 & A2 & A3).
  assert (Nt : forall i t, nth_error ts i = Some t -> exists s, nth_error ss i = Some s /\ alike s t).
  { clear - F. induction F as [|s t ss ts H F IH]; intros [|i] u E; try discriminate; cbn in *; [injection E as <-; eauto|apply IH, E]. }
  split; [|split].
  - intros t n I H. destruct (Forall2_in_r _ _ _ _ F I) as (s & Is & A). apply (A1 s n Is). rewrite (alike_names _ _ A). exact H.
  - intros w I. destruct (Forall2_in_r _ _ _ _ F I) as ([f|v] & Is & A); cbn in A; [contradiction|]. rewrite <- A. apply A2, Is.
  - intros i j w t n Ne E1 E2 H. destruct (Nt i _ E1) as ([f|v] & I1 & H1); cbn in H1; [contradiction|]. destruct (Nt j _ E2) as (s & I2 & H2).
    rewrite <- (alike_names _ _ H2). rewrite <- H1 in H. apply (A3 i j v s n Ne I1 I2 H).
Qed.

(** ** Vectors from csv files *)
Lemma named_table o cols v (t : dframe) : plain_cols cols -> (forall c, In c cols -> NamesSpec.no_comma c) -> NoDup (map fst t) -> data_names t = cols ->
  List.length cols = 2%nat -> List.length (v_names v) = 2%nat -> fit_names (v_names v) -> (forall n, In n (v_names v) -> standard n = false) ->
  match o with None => String.concat "," (v_names v) = String.concat "," cols | Some n => n = String.concat "," (v_names v) /\ ~ In n ["lat"; "long"; "time"] end ->
  exists nt, name_vector_df o t = Ok nt /\ fst nt = v_names v /\ table_points (snd nt) = table_points t.
Proof.
  intros [Nc Pc] Cc Nt D L1 L2 [Nn Cn] Sn Ho. assert (Ne : cols <> []) by (intros ->; discriminate). assert (Ne' : v_names v <> []) by (intros E; rewrite E in L2; discriminate).
  destruct (C63_vector_partial _ t cols (proj2 (named_iff cols t) D) Ne Cc) as [E1 E2]. destruct o as [n|].
  - destruct Ho as [-> _]. destruct (E2 Nc (v_names v) Ne') as [E3 _]. { intros n I. apply no_comma_chars, Cn, I. }
    destruct E3 as (t' & E & R); [congruence|]. exists (v_names v, t'). split; [exact E|]. split; [reflexivity|]. cbn [snd]. eapply renamed_points; eauto.
  - exists (cols, t). split; [exact E1|]. split; [|reflexivity]. cbn [fst].
    rewrite <- (split_back (v_names v) L2 Cn), Ho. symmetry. apply (split_join ","%char ""); [exact Ne|exact Cc].
Qed.
Lemma names_two l : List.length l = 2%nat -> add_mag_dir l = Ok tt.
Proof. intros L. destruct (two_names l L) as (a & b & ->). reflexivity. Qed.
Lemma selected_within_iff b a d d' : inside_region b a -> selected (belongs b) d d' -> forall pts, selected (belongs a) d' pts <-> selected (belongs a) d pts.
Proof. intros I S pts. symmetry. apply (selected_within (belongs b) (belongs a) _ _ (fun p => inside_belongs b a p I) S). Qed.
Lemma frame_supplied glob sq dsin dcos proj read_csv open_nc b min_dp k (src : string * params) v cls files cols dated p1 p' (t : dframe) : plain_region b -> fit_names (v_names v) ->
  get_dataloader glob (fst src) (snd src) min_dp = Ok (cls, p1) -> add_default_params cls p1 = Ok p' -> ~ In cls table_classes ->
  vector_settled (snd src) min_dp cols v -> ready p' files src (String.concat "," cols) (stand_in v) -> v_xr v = false ->
  vfields dated cols t (v_data v) -> data_names t = cols ->
  construct_any sq dsin dcos proj read_csv open_nc k cls p' b = construct_frame sq proj k p' b t ->
  exists v', provides glob (construct_any sq dsin dcos proj read_csv open_nc) sq b min_dp k src (Vector v') /\ vagree b v' v.
Proof.
  intros R Fn E1 E2 Nt St Rd X Fc Dn Ct.
  destruct (settled_cols _ _ _ _ St) as (Pc & Cc). pose proof (given_names _ _ _ _ St) as Gn. destruct (vs_two _ _ _ _ St) as (L1 & L2).
  assert (P := vfields_points _ _ _ _ Pc Dn Fc). assert (W := vfields_wf _ _ _ _ Fc).
  assert (Tr : exists t', trim_table b t = Ok t' /\ data_names t' = cols /\ NoDup (map fst t')).
  { destruct Fc as (N & C & G & _). unfold trim_table, column_of. rewrite (G "lat"), (G "long") by (apply C; auto). cbn [bind]. eexists. split; [reflexivity|]. split; [rewrite keep_names; exact Dn|].
    unfold keep_rows. rewrite map_map. cbn [fst]. exact N. }
  destruct Tr as (t' & Et & Dn' & Nd'). destruct (trim_plain b R) as (L & Tk).
  assert (S := C72_csv_trim b _ t t' L Tk W Et). rewrite P in S.
  apply (TrimProofs.selected_weaken _ (belongs b)) in S.
  2: { intros p I. split; [tauto|]. intros B. split; [exact B|]. intros Ic. destruct Fc as (_ & C & _ & V). destruct (V p I) as (_ & V').
       destruct dated; [destruct V' as (z & ->); discriminate|]. apply C in Ic. exfalso. destruct Ic as [Ic|[Ic|[Ic|[Ic _]]]]; try discriminate.
       apply (proj2 Pc) in Ic. discriminate. }
  assert (B : forall p, In p (table_points t') -> belongs b p) by (intros p I; apply (selected_In _ _ _ p S) in I; apply I).
  exists (mkVFeed (v_names v) (v_xr v) (v_agg v) (v_min v) (v_conds v) (table_points t')).
  split.
  2: { unfold vagree. cbn [v_names v_xr v_agg v_min v_conds v_data]. repeat (split; [reflexivity|]). intros a pts Ia. apply (selected_within_iff b); assumption. }
  destruct Rd as [Rf (o & Rn & Rn') Ra Ra' Rm (s & Ri & Ro) (x & y & Rx & Ry) Rfa Ru]. destruct St. cbn [provides v_names v_xr v_agg v_min v_conds v_data stand_in f_name f_agg f_min] in *.
  split; [|split; [exact vs_known|split; [exact vs_min|split; [rewrite X; discriminate|split; [|split; [exact vs_conds|exact vs_fill]]]]]].
  - exists cls, p1, p'. split; [exact E1|]. split; [exact E2|]. split; [|split; [exact Ra'|exact Nt]].
    rewrite Ct. unfold construct_frame.
    rewrite Et. cbn [bind]. rewrite Ri. cbn [bind]. rewrite Ro. cbn [bind]. rewrite Rx. cbn [bind]. rewrite Ry. cbn [bind].
    unfold reproject. rewrite String.eqb_refl. cbn [bind]. rewrite Rn. cbn [bind].
    destruct (named_table o cols v t' Pc Cc Nd' Dn' L1 L2 Fn Gn Rn') as (nt & En & Fst & Pn). rewrite En. cbn [bind]. rewrite Fst, (names_two _ L2). cbn [bind].
    rewrite Pn, (construct_df_same b _ R B). cbn [bind]. rewrite Ra. cbn [bind]. rewrite Rm. cbn [bind]. unfold vfeed_loader. cbn [v_xr v_names v_agg v_min v_data]. rewrite X. reflexivity.
  - intros p I. rewrite L2, <- L1. apply (selected_In _ _ _ p S) in I. destruct Fc as (_ & _ & _ & V). apply V, I.
Qed.
Lemma vector_csv_supplied glob sq dsin dcos proj read_csv open_nc b min_dp k src v : plain_region b -> fit_names (v_names v) -> vector_csv glob read_csv min_dp src v ->
  exists v', provides glob (construct_any sq dsin dcos proj read_csv open_nc) sq b min_dp k src (Vector v') /\ vagree b v' v.
Proof.
  intros R Fn (cols & dated & files & ds & Sn & St & Lf & (file0 & t0 & F0 & R0 & Nm) & Fd & Mi & X & Dt).
  destruct (vector_ready glob src min_dp "vector_csv" "VectorCSVDataLoader" files cols v Sn eq_refl) as (p' & (p1 & E1 & E2) & Rd); auto.
  { apply ParamProofs.sget_in. reflexivity. } { intros p. reflexivity. }
  destruct (settled_cols _ _ _ _ St) as (Pc & Cc). pose proof (given_names _ _ _ _ St) as Gn. destruct (vs_two _ _ _ _ St) as (L1 & L2).
  assert (T : exists ts, mapM read_csv files = Ok ts /\ Forall2 (vfields dated cols) ts ds /\ nth_error ts 0 = Some t0).
  { destruct files as [|f0 files]; [discriminate|]. injection F0 as ->. inversion Fd as [|? d0 ? ds' (t & Et & H0) Fd']; subst. rewrite R0 in Et. injection Et as <-.
    assert (Y : exists ts, mapM read_csv files = Ok ts /\ Forall2 (vfields dated cols) ts ds').
    { clear - Fd' Pc. induction Fd' as [|file d files ds (t & Er & H) Fd IH]; [exists []; split; [reflexivity|constructor]|].
      destruct IH as (ts & E & F). exists (t :: ts). split; [cbn; rewrite Er, E; reflexivity|]. constructor; [apply vholds_fields; assumption|exact F]. }
    destruct Y as (ts & E & F). exists (t0 :: ts). split; [cbn; rewrite R0, E; reflexivity|]. split; [|reflexivity]. constructor; [apply vholds_fields; assumption|exact F]. }
  destruct T as (ts & Em & Ft & Nt). destruct ts as [|t0' ts]; [discriminate|]. injection Nt as ->.
  destruct (concat_vfields dated cols t0 ts ds Ft) as (t & Ec & Fc & Mt).
  assert (Dn : data_names t = cols) by (unfold data_names; rewrite Mt; apply named_iff, Nm).
  apply (frame_supplied glob sq dsin dcos proj read_csv open_nc b min_dp k src v "VectorCSVDataLoader" files cols dated p1 p' t); auto.
  - cbn. intuition discriminate.
  - rewrite Dt. exact Fc.
  - unfold construct_any. cbn [String.eqb Ascii.eqb Bool.eqb]. unfold construct_vector_csv. rewrite (rd_files _ _ _ _ _ Rd). cbn [bind]. rewrite Em. cbn [bind]. rewrite Ec. reflexivity.
Qed.
Lemma vector_sose_supplied glob sq dsin dcos proj read_csv open_nc b min_dp k src v : plain_region b -> fit_names (v_names v) -> vector_sose glob open_nc min_dp src v ->
  exists v', provides glob (construct_any sq dsin dcos proj read_csv open_nc) sq b min_dp k src (Vector v') /\ vagree b v' v.
Proof.
  intros R Fn (files & ds & Sn & St & Lf & Op & Wi & Ro & X).
  destruct (vector_ready glob src min_dp "sose" "SOSEDataLoader" files ["uC"; "vC"] v Sn eq_refl) as (p' & (p1 & E1 & E2) & Rd); auto.
  { apply ParamProofs.sget_in. reflexivity. } { intros p. reflexivity. }
  set (t := match sose_frame ["uC"; "vC"] ds with Ok t => t | Err _ => [] end).
  apply (frame_supplied glob sq dsin dcos proj read_csv open_nc b min_dp k src v "SOSEDataLoader" files ["uC"; "vC"] false p1 p' t); auto.
  - cbn. intuition discriminate.
  - assert (M : forall (g : point -> entry) (h : point -> entry), (forall p q, sose_row p q -> g p = h q) -> map g (xr_points ds) = map h (v_data v)).
    { intros g h H. clear - Ro H. induction Ro as [|p q l l' S F IH]; [reflexivity|]. cbn [map]. rewrite (H p q S), IH. reflexivity. }
    split; [|split; [|split]].
    + cbn. repeat constructor; cbn; intuition discriminate.
    + intros c. unfold t. cbn -[xr_points]. intuition (try discriminate; subst; auto).
    + intros c. unfold t. cbn -[xr_points]. intros I. repeat (destruct I as [<-|I]); try destruct I; cbn -[xr_points]; f_equal; apply M; intros p q (S1 & S2 & S3 & S4); unfold vfield; cbn.
      * rewrite S1. reflexivity.
      * unfold sose_long. destruct (qltb_spec 180 (p_long p)); destruct S4 as [[S4 ->]|[S4 ->]]; try reflexivity; lra.
      * rewrite S3. reflexivity.
      * rewrite S3. reflexivity.
    + intros q I. destruct (Forall2_in_r _ _ _ _ Ro I) as (p & Ip & S1 & S2 & S3 & _). rewrite S3, (Wi p Ip). split; [reflexivity|exact S2].
  - unfold construct_any. cbn [String.eqb Ascii.eqb Bool.eqb]. unfold construct_sose. rewrite (rd_files _ _ _ _ _ Rd). cbn [bind]. rewrite Op. reflexivity.
Qed.

(** ** Vectors from netCDF files *)
Lemma going_eq dsin dcos convert l : (forall l, going dsin dcos l (convert l)) -> convert l = wave_vector dsin dcos l.
Proof. intros H. specialize (H l). unfold going in H. unfold wave_vector. destruct l as [|[u|] [|w l]]; exact H. Qed.
Lemma period_files b files kept : in_period b files kept -> by_date b files = Ok kept.
Proof.
  intros (first & last & C1 & C2 & Tr & N & Ne & Pk). unfold by_date. rewrite Tr.
  assert (E := C67_era5 first last files kept C1 C2 N Pk). destruct kept; [contradiction|exact E].
Qed.
Lemma plain_got b ds : plain_region b -> increasing (x_lat ds) -> increasing (x_long ds) -> dated b ds ->
  exists ds', import_plain b ds = Ok ds' /\ got_from b ds' (fun d => Permutation d (xr_points ds)).
Proof.
  intros R H H0 T. destruct (C69_plain b ds R H H0 T) as (ds' & E & S). exists ds'. split; [exact E|].
  destruct (trim_keeps_order b ds ds' R) as (O' & P'); [|exact (proj2 T)|exact E|]. { split; [exact H|]. split; [exact H0|apply T]. }
  split; [exact O'|]. split; [exact P'|]. split; [intros p I; apply (selected_In _ _ _ p S) in I; apply I|]. exists (xr_points ds). split; [apply Permutation_refl|exact S].
Qed.
Lemma reversed_got b ds : plain_region b -> decreasing (x_lat ds) -> increasing (x_long ds) -> dated b ds ->
  exists ds', import_reversed b ds = Ok ds' /\ got_from b ds' (fun d => Permutation d (xr_points ds)).
Proof.
  intros R H H0 T. destruct (C69_reversed_partial b ds R H H0 T) as (ds' & sel & E & S & Pm). exists ds'. split; [exact E|].
  unfold import_reversed, reverse_lat in E. rewrite (decreasing_dup _ H) in E. cbn [bind] in E.
  assert (K := E). eapply trim_keeps_order in K; [|exact R|split; [apply decreasing_rev, H|]; split; [exact H0|apply T]|exact (proj2 T)]. destruct K as (O' & P').
  destruct (reordered _ _ _ _ S Pm) as (B & d' & Pd & Sd). split; [exact O'|]. split; [exact P'|]. split; [exact B|]. exists d'. split; [exact Pd|exact Sd].
Qed.
Lemma place_ordered {A} (l : list A) (g : A -> Q) : StronglySorted (fun x y => (g x < g y)%Q) l -> ForallOrdPairs (fun x y => ~ (g x == g y)%Q) l.
Proof. intros S. induction S as [|a l S IH F]; constructor; [|exact IH]. revert F. apply Forall_impl. intros x L E. lra. Qed.
Lemma pairs_app {A} (R : A -> A -> Prop) l m : ForallOrdPairs R l -> ForallOrdPairs R m -> (forall x y, In x l -> In y m -> R x y) -> ForallOrdPairs R (l ++ m)%list.
Proof.
  intros F G H. induction F as [|a l Fa F IH]; [exact G|]. cbn. constructor; [|apply IH; intros x y I J; apply H; [right; exact I|exact J]].
  apply Forall_app. split; [exact Fa|]. apply Forall_forall. intros y J. apply H; [left; reflexivity|exact J].
Qed.
Lemma pairs_flat {A B} (R : B -> B -> Prop) (f : A -> list B) l : (forall a, In a l -> ForallOrdPairs R (f a)) -> ForallOrdPairs (fun a a' => forall x y, In x (f a) -> In y (f a') -> R x y) l -> ForallOrdPairs R (flat_map f l).
Proof.
  intros H F. induction F as [|a l Fa F IH]; [constructor|]. cbn [flat_map]. apply pairs_app; [apply H; left; reflexivity|apply IH; intros b I; apply H; right; exact I|].
  intros x y I J. apply in_flat_map in J as (a' & Ia & J). rewrite Forall_forall in Fa. exact (Fa a' Ia x y I J).
Qed.
Lemma pairs_weaken {A} (R S : A -> A -> Prop) l : (forall x y, R x y -> S x y) -> ForallOrdPairs R l -> ForallOrdPairs S l.
Proof. intros H F. induction F as [|a l Fa F IH]; constructor; [|exact IH]. revert Fa. apply Forall_impl. auto. Qed.
Lemma grid_places la lo f : StronglySorted (fun x y : Q * nat => (fst x < fst y)%Q) la -> StronglySorted (fun x y : Q * nat => (fst x < fst y)%Q) lo ->
  ForallOrdPairs (fun p q => ~ same_place p q) (xr_points (mkXr la lo None f)).
Proof.
  intros A B. unfold xr_points. cbn [x_lat x_long x_time x_val]. apply pairs_flat.
  - intros a _. apply pairs_flat; [intros c _; repeat constructor|]. eapply pairs_weaken; [|apply (place_ordered lo fst B)].
    intros c c' N x y [<-|[]] [<-|[]] [_ E]. exact (N E).
  - eapply pairs_weaken; [|apply (place_ordered la fst A)]. intros a a' N x y I J [E _].
    apply in_flat_map in I as (c & _ & [<-|[]]), J as (c' & _ & [<-|[]]). exact (N E).
Qed.
Lemma trim_axes b ds tr : (long_min b < long_max b)%Q -> increasing (x_lat ds) -> increasing (x_long ds) -> xr_trim b ds = Ok tr ->
  (forall x, In x (x_lat tr) <-> In x (x_lat ds) /\ (lat_min b < fst x <= lat_max b)%Q) /\ (forall x, In x (x_long tr) <-> In x (x_long ds) /\ (long_min b < fst x <= long_max b)%Q).
Proof.
  intros L A B. unfold xr_trim, sel_slice. rewrite (increasing_monotone _ A), (increasing_monotone _ B). cbn [bind]. destruct (qltb_spec (long_min b) (long_max b)); [|lra]. cbn [bind].
  match goal with |- bind ?x _ = _ -> _ => destruct x as [ts|]; [|discriminate] end. cbn [bind]. intros E. injection E as <-. cbn [x_lat x_long].
  split; intros x; rewrite !filter_In, negb_true_iff, andb_true_iff, !qleb_true.
  - destruct (qeqb_spec (fst x) (lat_min b)) as [Q|Q]; split; [intros (_ & K); discriminate|intros (_ & K); lra| |]; intros (H & K); (split; [|try reflexivity]).
    + apply H.
    + destruct H as (_ & H1 & H2). split; [|exact H2]. destruct (Qlt_le_dec (lat_min b) (fst x)); [assumption|]. exfalso. apply Q. lra.
    + split; [exact H|lra].
  - destruct (qeqb_spec (fst x) (long_min b)) as [Q|Q]; split; [intros (_ & K); discriminate|intros (_ & K); lra| |]; intros (H & K); (split; [|try reflexivity]).
    + apply H.
    + destruct H as (_ & H1 & H2). split; [|exact H2]. destruct (Qlt_le_dec (long_min b) (fst x)); [assumption|]. exfalso. apply Q. lra.
    + split; [exact H|lra].
Qed.
Lemma lt_increasing (l : list (Q * nat)) : StronglySorted (fun x y => (fst x < fst y)%Q) l -> increasing l.
Proof. intros S. apply increasing_sorted. induction S as [|a l S IH F]; constructor; [exact IH|]. revert F. apply Forall_impl. intros x L. lra. Qed.
Lemma baltic_got b ds ts : plain_region b -> strictly (x_lat ds) -> strictly (x_long ds) -> dated b ds -> x_time ds = Some ts -> ts <> [] ->
  exists ds', import_baltic_current b ds = Ok ds' /\ got_from b ds' (period_means b (xr_points ds)).
Proof.
  intros R A B T Ht Ne. destruct (C69_baltic_current b ds R A B T) as (ds' & sel & E & S & H1 & H2); [congruence|]. exists ds'. split; [exact E|].
  unfold import_baltic_current in E. destruct (xr_trim b ds) as [tr|] eqn:Et; [|discriminate]. cbn [bind] in E.
  destruct (trim_shape b ds tr (proj1 (proj2 R)) Et) as ((f & F) & (g & G) & _).
  destruct (trim_axes b ds tr (proj1 (proj2 R)) (strictly_increasing _ A) (strictly_increasing _ B) Et) as (Xa & Xo).
  assert (Sa : StronglySorted (fun x y : Q * nat => (fst x < fst y)%Q) (x_lat tr)) by (rewrite F; apply sorted_filter, strictly_sorted, A).
  assert (So : StronglySorted (fun x y : Q * nat => (fst x < fst y)%Q) (x_long tr)) by (rewrite G; apply sorted_filter, strictly_sorted, B).
  unfold time_mean in E. destruct (x_time tr) as [ts'|] eqn:Tt; [|discriminate]. injection E as <-. set (h := fun i j _ => _) in *.
  assert (In' : forall p, In p (xr_points (mkXr (x_lat tr) (x_long tr) None h)) <-> exists la lo, In la (x_lat tr) /\ In lo (x_long tr) /\ p = mkP (fst la) (fst lo) None (h (snd la) (snd lo) 0%nat)).
  { intros p. unfold xr_points. cbn [x_lat x_long x_time x_val]. split.
    - intros I. apply in_flat_map in I as (la & Ia & I). apply in_flat_map in I as (lo & Io & [<-|[]]). eauto.
    - intros (la & lo & Ia & Io & ->). apply in_flat_map. exists la. split; [exact Ia|]. apply in_flat_map. exists lo. split; [exact Io|]. left. reflexivity. }
  assert (Fi : forall la lo, In la (x_lat ds) -> In lo (x_long ds) -> exists r, In r (xr_points ds) /\ p_lat r = fst la /\ p_long r = fst lo).
  { intros la lo Ia Io. destruct ts as [|t ts]; [contradiction|]. eexists. split; [unfold xr_points; rewrite Ht; apply in_flat_map; exists la; split; [exact Ia|]; apply in_flat_map; exists lo; split; [exact Io|]; left; reflexivity|].
    split; reflexivity. }
  assert (Rg : forall x y, mem (region b) x y <-> (long_min b < x <= long_max b)%Q /\ (lat_min b < y <= lat_max b)%Q).
  { intros x y. unfold mem, region. cbn [x0 x1 y0 y1]. destruct (qltb_spec (long_min b) (long_max b)) as [_|Q]; [tauto|]. exfalso. apply Q, R. }
  assert (Me : forall p, In p (xr_points (mkXr (x_lat tr) (x_long tr) None h)) -> p_time p = None /\ mem (region b) (p_long p) (p_lat p)).
  { intros p I. apply In' in I as (la & lo & Ia & Io & ->). split; [reflexivity|]. apply Xa in Ia. apply Xo in Io. apply Rg. cbn. tauto. }
  assert (Be : forall p, In p (xr_points (mkXr (x_lat tr) (x_long tr) None h)) -> belongs b p).
  { intros p I. destruct (Me p I) as (M1 & M2). split; [exact M2|]. unfold on_date. rewrite M1. exact Logic.I. }
  split; [|split; [|split; [exact Be|]]].
  - split; [apply lt_increasing, Sa|split; [apply lt_increasing, So|discriminate]].
  - intros N. exfalso. apply N. reflexivity.
  - exists (xr_points (mkXr (x_lat tr) (x_long tr) None h)). split; [|apply ConstructProofs.selected_all, Be].
    exists sel. split; [exact S|]. split; [|split; [apply grid_places; assumption|]].
    + intros r Ir M. unfold xr_points in Ir. rewrite Ht in Ir. apply in_flat_map in Ir as (la & Ia & I). apply in_flat_map in I as (lo & Io & I). apply in_map_iff in I as (t & <- & It).
      cbn [p_lat p_long] in M |- *. apply Rg in M. eexists. split; [apply In'; exists la, lo; split; [apply Xa; tauto|]; split; [apply Xo; tauto|reflexivity]|split; reflexivity].
    + intros p I. destruct (Me p I) as (M1 & M2). destruct (H2 p I) as (_ & H3 & H4). split; [exact M1|]. split; [exact M2|]. split; [|split; [exact H3|exact H4]].
      apply In' in I as (la & lo & Ia & Io & ->). destruct (Fi la lo) as (r & Ir & E1 & E2); [apply Xa, Ia|apply Xo, Io|]. exists r. split; [exact Ir|]. split; cbn; rewrite ?E1, ?E2; reflexivity.
Qed.
Lemma got_weaken b ds' (A B : data -> Prop) : (forall d, A d -> B d) -> got_from b ds' A -> got_from b ds' B.
Proof. intros I (G1 & G2 & G3 & d' & G4 & G5). split; [exact G1|]. split; [exact G2|]. split; [exact G3|]. exists d'. auto. Qed.
Lemma vector_got dsin dcos open_nc b files name cls kept ds d cols vars : plain_region b -> dated b ds ->
  vector_loader dsin dcos b files name cls kept ds d -> open_nc cls kept = Ok (vars, ds) -> components name vars cols ds ->
  exists ds', import_vector_grid dsin dcos open_nc cls b files = Ok (cols, ds') /\ got_from b ds' (vector_loader dsin dcos b files name cls kept ds).
Proof.
  intros R T G O V. destruct G as [ds d H H0 Pm|ts ds d H H0 Ht Ne Pm|kept ds d Pe H H0 Pm|kept ds d Pe H H0 Pm|convert kept ds d Pe H Cv Tk]; unfold import_vector_grid, components in *;
    cbn [String.eqb Ascii.eqb Bool.eqb] in V |- *.
  - destruct V as (-> & _). destruct (plain_got b ds R H H0 T) as (ds' & E & G). exists ds'. rewrite O. cbn [bind fst snd]. rewrite E. split; [reflexivity|].
    eapply got_weaken; [|exact G]. intros d' P. constructor; assumption.
  - destruct V as (-> & _). destruct (baltic_got b ds ts R H H0 T Ht Ne) as (ds' & E & G). exists ds'. rewrite O. cbn [bind fst snd]. rewrite E. split; [reflexivity|].
    eapply got_weaken; [|exact G]. intros d' P. econstructor; eassumption.
  - destruct V as (-> & _). destruct (plain_got b ds R H H0 T) as (ds' & E & G). exists ds'. rewrite (period_files _ _ _ Pe). cbn [bind]. rewrite O. cbn [bind fst snd]. rewrite E. split; [reflexivity|].
    eapply got_weaken; [|exact G]. intros d' P. constructor; assumption.
  - destruct V as (-> & _). destruct (reversed_got b ds R H H0 T) as (ds' & E & G). exists ds'. rewrite (period_files _ _ _ Pe). cbn [bind]. rewrite O. cbn [bind fst snd]. rewrite E. split; [reflexivity|].
    eapply got_weaken; [|exact G]. intros d' P. constructor; assumption.
  - subst cols. destruct (era5_got (wave_vector dsin dcos) b ds R H T) as (ds' & E & G). exists ds'. rewrite (period_files _ _ _ Pe). cbn [bind]. rewrite O. cbn [bind fst snd]. rewrite E. split; [reflexivity|].
    eapply got_weaken; [|exact G]. intros d' P. apply (vl_waves _ _ _ _ (wave_vector dsin dcos)); auto. intros l. rewrite <- (going_eq dsin dcos convert l Cv). apply Cv.
Qed.
Lemma vector_width dsin dcos b files name cls kept ds d cols vars : vector_loader dsin dcos b files name cls kept ds d -> components name vars cols ds -> List.length cols = 2%nat ->
  forall p, In p d -> List.length (p_vals p) = 2%nat.
Proof.
  intros G V L. destruct G as [ds d H H0 Pm|ts ds d H H0 Ht Ne Pm|kept ds d Pe H H0 Pm|kept ds d Pe H H0 Pm|convert kept ds d Pe H Cv (all & F & Pm)]; unfold components in V; cbn [String.eqb Ascii.eqb Bool.eqb] in V; intros p I;
    try (destruct Pm as (sel & _ & _ & _ & Pm); apply Pm, I); apply (Permutation_in _ Pm) in I; try (rewrite <- L; apply V, I).
  destruct (Forall2_in_r _ _ _ _ F I) as (q & _ & _ & ->). rewrite (going_eq dsin dcos convert _ Cv). unfold wave_vector. destruct (p_vals q) as [|[u|] [|w l]]; reflexivity.
Qed.
Lemma named_grid o cols v ds : plain_cols cols -> (forall c, In c cols -> NamesSpec.no_comma c) ->
  List.length cols = 2%nat -> List.length (v_names v) = 2%nat -> fit_names (v_names v) -> (forall n, In n (v_names v) -> standard n = false) ->
  match o with None => String.concat "," (v_names v) = String.concat "," cols | Some n => n = String.concat "," (v_names v) /\ ~ In n ["lat"; "long"; "time"] end ->
  name_vector_xr o cols ds = Ok (v_names v).
Proof.
  intros [Nc Pc] Cc L1 L2 [Nn Cn] Sn Ho. assert (Ne : cols <> []) by (intros ->; discriminate).
  unfold name_vector_xr. rewrite (split_join ","%char "" cols Ne Cc). destruct o as [n|].
  - destruct Ho as [-> _]. rewrite (split_back (v_names v) L2 Cn), L1, L2. cbn [Nat.eqb].
    destruct (two_names cols L1) as (a & c & ->), (two_names _ L2) as (a' & c' & E). rewrite E in *. cbn [name_dict app map].
    unfold rename_xr. cbn [map fst].
    assert (I1 : forallb (fun p : string * string => existsb (String.eqb (fst p)) (coords_of ds ++ [a; c])%list) [(c, c'); (a, a')] = true).
    { cbn [forallb fst]. rewrite !existsb_app. cbn [existsb]. rewrite !String.eqb_refl, !orb_true_r. reflexivity. }
    rewrite I1. cbn [negb].
    assert (Nac : a <> c) by (inversion Nc as [|? ? X]; subst; intros ->; apply X; left; reflexivity).
    assert (M : map (fun n => match sget [(c, c'); (a, a')] n with Some m => m | None => n end) (coords_of ds ++ [a; c])%list = (coords_of ds ++ [a'; c'])%list).
    { rewrite map_app. f_equal.
      - rewrite <- (map_id (coords_of ds)) at 2. apply map_ext_in. intros x Ix. assert (Sx : standard x = true).
        { apply standard_coordinate. unfold a_coordinate, coords_of in *. destruct (x_time ds); cbn in *; tauto. }
        cbn [sget]. destruct (String.eqb_spec x c) as [->|]; [rewrite (Pc c) in Sx by (right; left; reflexivity); discriminate|].
        destruct (String.eqb_spec x a) as [->|]; [rewrite (Pc a) in Sx by (left; reflexivity); discriminate|reflexivity].
      - cbn [map sget]. rewrite !String.eqb_refl. destruct (String.eqb_spec a c) as [->|]; [contradiction|reflexivity]. }
    rewrite M.
    assert (Rp : repeats (coords_of ds ++ [a'; c'])%list = false).
    { apply repeats_spec. assert (Nd : NoDup (coords_of ds)) by (unfold coords_of; destruct (x_time ds); repeat constructor; cbn; intuition discriminate).
      assert (Y : forall n, In n [a'; c'] -> ~ In n (coords_of ds)).
      { intros n I J. apply Sn in I. assert (Sx : standard n = true); [|congruence]. apply standard_coordinate. unfold a_coordinate, coords_of in *. destruct (x_time ds); cbn in *; tauto. }
      change [a'; c'] with ([a'] ++ [c'])%list. rewrite app_assoc. apply NoDup_app_one; [apply NoDup_app_one; [exact Nd|apply Y; left; reflexivity]|].
      rewrite in_app_iff. intros [H|[H|[]]]; [exact (Y c' (or_intror (or_introl eq_refl)) H)|]. subst c'. inversion Nn as [|? ? X]; subst. apply X. left. reflexivity. }
    rewrite Rp. reflexivity.
  - f_equal. rewrite <- (split_back (v_names v) L2 Cn), Ho. symmetry. apply (split_join ","%char "" cols Ne Cc).
Qed.
Lemma vector_known dsin dcos b files name cls kept ds d : vector_loader dsin dcos b files name cls kept ds d ->
  lower name = name /\ In (name, (cls, ["files"])) requirements /\ plain_class cls /\ (cls <> "VectorCSVDataLoader" /\ cls <> "SOSEDataLoader") /\ existsb (String.eqb cls) vector_classes = true.
Proof.
  intros G. assert (X : known_loader name cls = true /\ (cls <> "VectorCSVDataLoader" /\ cls <> "SOSEDataLoader") /\ existsb (String.eqb cls) vector_classes = true).
  { destruct G; (split; [vm_compute; reflexivity|split; [split; discriminate|reflexivity]]). }
  destruct X as (K & X1 & X2). apply known_loader_ok in K as (K1 & K2 & K3 & _). auto.
Qed.
Lemma vector_grid_supplied glob sq dsin dcos proj read_csv open_nc b min_dp k src v : plain_region b -> fit_names (v_names v) -> vector_grid glob open_nc dsin dcos b min_dp src v ->
  exists v' w, provides glob (construct_any sq dsin dcos proj read_csv open_nc) sq b min_dp k src (Vector v') /\ vagree b v' w /\ vector_grid glob open_nc dsin dcos b min_dp src w /\ v_names w = v_names v.
Proof.
  intros R Fn (name & cls & cols & vars & files & kept & ds & Sn & St & Lf & Op & Co & Da & Gl & X & Cn).
  destruct (vector_known _ _ _ _ _ _ _ _ _ Gl) as (Ln & Rq & Pcl & Ncsv & Vc).
  destruct (vector_ready glob src min_dp name cls files cols v Sn Ln Rq Pcl St Lf) as (p' & (p1 & E1 & E2) & Rd).
  destruct (settled_cols _ _ _ _ St) as (Pc & Cc). pose proof (given_names _ _ _ _ St) as Gn. destruct (vs_two _ _ _ _ St) as (L1 & L2).
  destruct Rd as [Rf (o & Rn & Rn') Ra Ra' Rm (s & Ri & Ro) (x & y & Rx & Ry) Rfa Ru]. cbn [stand_in f_name f_agg f_min] in *.
  destruct (vector_got dsin dcos open_nc b files name cls kept ds (v_data v) cols vars R Da Gl Op Co) as (ds' & Ei & (Or & Pe & Be & d & Gd & Sd)).
  destruct (construct_xr_same b ds' R Or Pe Be) as (ds'' & Ec & Pp).
  exists (mkVFeed (v_names v) (v_xr v) (v_agg v) (v_min v) (v_conds v) (xr_points ds')), (mkVFeed (v_names v) (v_xr v) (v_agg v) (v_min v) (v_conds v) d).
  assert (Stt := St). destruct St. split; [|split; [|split; [|reflexivity]]].
  - cbn [provides v_names v_xr v_agg v_min v_conds v_data].
    split; [|split; [exact vs_known|split; [exact vs_min|split; [intros _; exact Cn|split; [|split; [exact vs_conds|exact vs_fill]]]]]].
    + exists cls, p1, p'. split; [exact E1|]. split; [exact E2|]. split; [|split; [exact Ra'|exact (plain_no_table _ Pcl)]].
      unfold construct_any. destruct (String.eqb_spec cls "VectorCSVDataLoader") as [->|_]; [destruct Ncsv; contradiction|]. destruct (String.eqb_spec cls "SOSEDataLoader") as [->|_]; [destruct Ncsv; contradiction|]. rewrite Vc. unfold construct_vector_grid, construct_vector_dataset.
      rewrite Rf. cbn [bind]. rewrite Ei. cbn [bind snd fst]. rewrite Rfa. cbn [bind]. rewrite Ra. cbn [bind]. rewrite Rm. cbn [bind].
      unfold downsample. cbn [fst snd Z.eqb Pos.eqb andb bind]. rewrite Ri. cbn [bind]. rewrite Ro. cbn [bind]. rewrite Rn. cbn [bind]. rewrite String.eqb_refl.
      rewrite (named_grid o cols v ds' Pc Cc L1 L2 Fn Gn Rn'). cbn [bind]. rewrite (names_two _ L2). cbn [bind]. rewrite Ec. cbn [bind]. rewrite Pp.
      unfold vfeed_loader. cbn [v_xr v_names v_agg]. rewrite X. reflexivity.
    + intros p I. rewrite L2. apply (vector_width _ _ _ _ _ _ _ _ _ _ _ Gd Co L1). apply (selected_In _ _ _ p Sd) in I. apply I.
  - unfold vagree. cbn [v_names v_xr v_agg v_min v_conds v_data]. repeat (split; [reflexivity|]). intros a pts Ia. apply (selected_within_iff b); assumption.
  - exists name, cls, cols, vars, files, kept, ds. split; [exact Sn|]. split; [constructor; assumption|]. repeat (split; [assumption|]). exact Cn.
Qed.

(** ** The whole way *)
Lemma construct_scalar sq dsin dcos proj read_csv open_nc k cls p b r :
  construct_source sq proj read_csv open_nc k cls p b = Ok r -> construct_any sq dsin dcos proj read_csv open_nc k cls p b = Ok r.
Proof.
  intros H. unfold construct_any.
  assert (X : existsb (String.eqb cls) vector_classes = false).
  { destruct (existsb (String.eqb cls) vector_classes) eqn:E; [|reflexivity]. exfalso. apply existsb_exists in E as (c & I & E). apply String.eqb_eq in E. subst c.
    unfold vector_classes in I. cbn [In] in I. repeat destruct I as [<-|I]; try destruct I; unfold construct_source, construct_grid in H; cbn [String.eqb Ascii.eqb Bool.eqb] in H;
      (destruct (attr_files p) as [l|]; [|discriminate]); cbn in H; discriminate. }
  rewrite X. unfold vector_classes in X. cbn [existsb] in X. apply orb_false_iff in X as [-> X]. apply orb_false_iff in X as [-> _]. exact H.
Qed.
Lemma source_provided glob sq dsin dcos proj read_csv open_nc b min_dp k src s : plain_region b -> (forall v, s = Vector v -> fit_names (v_names v)) ->
  describes_source glob read_csv open_nc sq dsin dcos b min_dp src s ->
  exists s' t, provides glob (construct_any sq dsin dcos proj read_csv open_nc) sq b min_dp k src s' /\ sagree b s' t /\ describes_source glob read_csv open_nc sq dsin dcos b min_dp src t /\ alike t s.
Proof.
  intros R Fn D. destruct s as [f|v].
  - destruct (described_supplied glob sq proj read_csv open_nc b min_dp k src f R D) as (f' & g & Su & A & Dg & N). exists (Scalar f'), (Scalar g).
    split; [|split; [exact A|split; [exact Dg|exact N]]]. destruct Su as ((cls & p & p' & S1 & S2 & S3 & S4) & S5). split; [|exact S5].
    exists cls, p, p'. split; [exact S1|]. split; [exact S2|]. split; [apply construct_scalar; exact S3|exact S4].
  - specialize (Fn v eq_refl). destruct D as [D|[D|D]].
    + destruct (vector_csv_supplied glob sq dsin dcos proj read_csv open_nc b min_dp k src v R Fn D) as (v' & P & A). exists (Vector v'), (Vector v).
      split; [exact P|]. split; [exact A|]. split; [left; exact D|reflexivity].
    + destruct (vector_sose_supplied glob sq dsin dcos proj read_csv open_nc b min_dp k src v R Fn D) as (v' & P & A). exists (Vector v'), (Vector v).
      split; [exact P|]. split; [exact A|]. split; [right; left; exact D|reflexivity].
    + destruct (vector_grid_supplied glob sq dsin dcos proj read_csv open_nc b min_dp k src v R Fn D) as (v' & w & P & A & G & N). exists (Vector v'), (Vector w).
      split; [exact P|]. split; [exact A|]. split; [right; right; exact G|exact N].
Qed.
Lemma sagree_alike b s t : sagree b s t -> alike s t.
Proof. destruct s, t; cbn; try contradiction; intros (H & _); exact H. Qed.
Lemma all_provided glob sq dsin dcos proj read_csv open_nc b min_dp : plain_region b -> forall srcs ss0 k,
  Forall2 (describes_source glob read_csv open_nc sq dsin dcos b min_dp) srcs ss0 -> (forall v, In (Vector v) ss0 -> fit_names (v_names v)) ->
  exists ss ts, List.length ss = List.length srcs /\
    (forall i src s, nth_error srcs i = Some src -> nth_error ss i = Some s -> provides glob (construct_any sq dsin dcos proj read_csv open_nc) sq b min_dp (k + i) src s) /\
    Forall2 (sagree b) ss ts /\ Forall2 (describes_source glob read_csv open_nc sq dsin dcos b min_dp) srcs ts /\ Forall2 alike ts ss0.
Proof.
  intros R srcs ss0 k F. revert k. induction F as [|src s0 srcs ss0 D F IH]; intros k Fn.
  - exists [], []. split; [reflexivity|]. split; [intros [|i] ? ? E; discriminate|]. repeat split; constructor.
  - destruct (source_provided glob sq dsin dcos proj read_csv open_nc b min_dp k src s0 R) as (s' & t & P & A & Dt & Al); [|exact D|].
    { intros v ->. apply Fn. left. reflexivity. }
    destruct (IH (S k)) as (ss & ts & Le & Pr & Ag & De & As); [intros v I; apply Fn; right; exact I|].
    exists (s' :: ss), (t :: ts). split; [cbn; rewrite Le; reflexivity|]. split; [|repeat split; constructor; assumption].
    intros [|i] s1 f1 X1 X2; cbn in X1, X2.
    + injection X1 as <-. injection X2 as <-. rewrite Nat.add_0_r. exact P.
    + replace (k + S i)%nat with (S k + i)%nat by lia. apply Pr; assumption.
Qed.

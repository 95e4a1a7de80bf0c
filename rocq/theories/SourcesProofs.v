(** Proofs about whole data sources (C79). *)
From Verif Require Import Base Geo Graph Cell Loaders Builder Env Spec MeshSpec EnvSpec DataSpec QLib Construct ConstructSpec Names PyStr Dates DateSpec Config ConfigSpec Params ParamSpec
  Downsample Files FilesSpec Import ImportSpec Reproject ReprojectSpec Pipeline PipeSpec Sources SourcesSpec
  TrimProofs XrProofs ConstructProofs ParamProofs FilesProofs ImportProofs ReprojectProofs PipeProofs.
From Verif Require Import PropsFiles PropsImport PropsReproject.
Open Scope string_scope.
Open Scope Z_scope.

(** ** Data cut to the region serve its cells as well as all data *)
Definition inside_region (b a : boundary) : Prop :=
  time_range a = time_range b /\ forall x y, mem (region a) x y -> mem (region b) x y.
Lemma inside_belongs b a p : inside_region b a -> belongs a p -> belongs b p.
Proof.
  intros [T M] [H1 H2]. split; [apply M, H1|]. unfold on_date in *. destruct (p_time p); [|exact I]. rewrite <- T. exact H2.
Qed.
Lemma selected_within {A} (P R : A -> Prop) l l' : (forall x, R x -> P x) -> selected P l l' -> forall pts, selected R l pts <-> selected R l' pts.
Proof.
  intros H S. induction S as [|x l l' Px S IH|x l l' Px S IH]; intros pts.
  - reflexivity.
  - split; intros X; inversion X; subst; constructor; auto; apply IH; auto.
  - rewrite <- IH. split; intros X; [inversion X; subst; [exfalso; auto|auto]|]. constructor; auto.
Qed.
Lemma nested_inside b cw ch l : (long_min b < long_max b)%Q -> (0 < cw)%Q -> (0 < ch)%Q -> nested b cw ch l ->
  forall a, In a l -> inside_region b a /\ (x0 (region a) <= x1 (region a) /\ y0 (region a) <= y1 (region a))%Q.
Proof.
  intros L W H N. induction N as [a G T|q a a' l Q T N IH].
  - intros a0 [<-|[]]. destruct G as (i & j & (Pi & Pj) & G1 & G2 & G3 & G4 & G5 & G6).
    assert (0 <= inject_Z i)%Q by (unfold Qle; cbn; lia). assert (0 <= inject_Z j)%Q by (unfold Qle; cbn; lia).
    split; [|split; lra]. split; [exact T|]. intros x y [M1 M2].
    assert (R : x1 (region b) = long_max b) by (cbn; destruct (qltb_spec (long_min b) (long_max b)); [reflexivity|lra]).
    unfold mem. rewrite R. cbn [region x0 y0 y1]. assert (0 <= inject_Z i * cw)%Q by nra. assert (0 <= inject_Z j * ch)%Q by nra. lra.
  - intros a0 [<-|I]; [|apply IH, I]. destruct (IH a' (or_introl eq_refl)) as ([T' M] & S).
    unfold quarter, xmid, ymid in Q. assert (X : (forall x y, mem (region a) x y -> mem (region a') x y) /\ (x0 (region a) <= x1 (region a) /\ y0 (region a) <= y1 (region a))%Q).
    { generalize dependent (region a). generalize dependent (region a'). intros r' _ S r Q. unfold mem, xmid, ymid in *. destruct q; destruct Q as (Q1 & Q2 & Q3 & Q4); split; intros; lra. }
    destruct X as (X & Y). split; [|exact Y]. split; [exact T|]. intros x y K. apply M, X, K.
Qed.

(** Feeds that agree but for data outside the region. *)
Definition agree (b : boundary) (f g : feed) : Prop :=
  f_name f = f_name g /\ f_xr f = f_xr g /\ f_agg f = f_agg g /\ f_min f = f_min g /\ f_conds f = f_conds g /\ f_fill f = f_fill g /\
  forall a pts, inside_region b a -> (selected (belongs a) (f_data f) pts <-> selected (belongs a) (f_data g) pts).
Lemma agree_own sq b f g a v : agree b f g -> inside_region b a -> own_value sq f a v -> own_value sq g a v.
Proof.
  intros (_ & X & G & _ & _ & _ & D) I (pts & S & E). exists pts. split; [apply D; assumption|]. rewrite <- X, <- G. exact E.
Qed.
Lemma agree_filled sq b f g l v : agree b f g -> (forall a, In a l -> inside_region b a) -> filled sq f l v -> filled sq g l v.
Proof.
  intros A I F. induction F as [a l q O|a l q O E|a l v O E F IH|E].
  - apply filled_own. eapply agree_own; eauto. apply I. left. reflexivity.
  - apply filled_number; [eapply agree_own; eauto; apply I; left; reflexivity|]. rewrite <- E. symmetry. apply A.
  - apply filled_parent; [eapply agree_own; eauto; apply I; left; reflexivity| |apply IH; intros; apply I; right; auto]. rewrite <- E. symmetry. apply A.
  - apply filled_none. rewrite <- E. symmetry. apply A.
Qed.
Lemma agree_written sq b fs gs l n o : Forall2 (agree b) fs gs -> (forall a, In a l -> inside_region b a) -> written sq fs l n o -> written sq gs l n o.
Proof.
  intros A I (vs & F & E). exists vs. split; [|exact E]. clear E. revert vs F. induction A as [|f g fs gs A As IH]; cbn [filter]; intros vs F; [exact F|].
  replace (f_name g) with (f_name f) by apply A. destruct (String.eqb (f_name f) n); [|apply IH, F].
  inversion F; subst. constructor; [eapply agree_filled; eauto|apply IH; assumption].
Qed.
Lemma agree_sym b f g : agree b f g -> agree b g f.
Proof. intros (A & B & C & D & E & F & G). repeat split; auto; intros; apply G; auto. Qed.
Lemma Forall2_sym {A B} (R : A -> B -> Prop) (R' : B -> A -> Prop) l l' : (forall a b, R a b -> R' b a) -> Forall2 R l l' -> Forall2 R' l' l.
Proof. intros H F. induction F; constructor; auto. Qed.
Lemma agree_says b fs gs a h : Forall2 (agree b) fs gs -> inside_region b a -> says_hom fs a h -> says_hom gs a h.
Proof.
  intros A I (f & c & pts & If & Ic & S & E). destruct (Forall2_in_l _ _ _ _ A If) as (g & Ig & X & _ & _ & M & C & _ & D).
  exists g, c, pts. split; [exact Ig|]. split; [rewrite <- C; exact Ic|]. split; [apply D; assumption|]. rewrite <- M. exact E.
Qed.
Lemma agree_ought b fs gs a : Forall2 (agree b) fs gs -> inside_region b a -> (ought_to_split fs a <-> ought_to_split gs a).
Proof.
  intros A I. assert (A' := Forall2_sym _ _ _ _ (agree_sym b) A). unfold ought_to_split.
  assert (X : forall h, says_hom fs a h <-> says_hom gs a h) by (intros h; split; eapply agree_says; eauto).
  rewrite !X. reflexivity.
Qed.
Lemma agree_configured sq b fs gs cw ch depth c : (long_min b < long_max b)%Q -> (0 < cw)%Q -> (0 < ch)%Q -> Forall2 (agree b) fs gs ->
  as_configured sq fs b cw ch depth c -> as_configured sq gs b cw ch depth c.
Proof.
  intros L W H A (l & N & Le & S & NS & V). exists l.
  assert (I : forall a, In a (e_bounds c :: l) -> inside_region b a) by (intros a Ia; apply (nested_inside b cw ch _ L W H N a Ia)).
  split; [exact N|]. split; [exact Le|]. split; [|split].
  - intros b' Ib. destruct (S b' Ib) as (n & O). exists n. apply (agree_ought b _ _ b' (Forall2_firstn _ n _ _ A)); [apply I; right; exact Ib|exact O].
  - intros D O. apply (NS D). apply (agree_ought b _ _ (e_bounds c) A); [apply I; left; reflexivity|exact O].
  - intros n. eapply agree_written; eauto.
Qed.

(** ** Parameters *)
Lemma slash_dec s : (exists s', s = s' ++ "/") \/ ~ exists s', s = s' ++ "/".
Proof.
  induction s as [|c s IH]; [right; intros ([|? ?] & E); discriminate|].
  destruct IH as [(s' & ->)|N]; [left; exists (String c s'); reflexivity|].
  destruct s as [|c' s0].
  - destruct (Ascii.eqb_spec c "/"%char) as [->|K]; [left; exists ""; reflexivity|right; intros ([|a [|? ?]] & E); try discriminate; cbn in E; injection E; congruence].
  - right. intros ([|a s'] & E); cbn in E; injection E; intros; [subst; discriminate|]. apply N. exists s'. assumption.
Qed.
Lemma join_slash_spec s dir : (dir = s /\ (s = "" \/ exists s', s = s' ++ "/")) \/ (dir = s ++ "/" /\ s <> "" /\ ~ exists s', s = s' ++ "/") -> join_slash s = dir.
Proof.
  intros [[-> [->|(s' & ->)]]|[-> [N X]]]; [reflexivity| |].
  - induction s' as [|c s' IH]; [reflexivity|]. change (String c s' ++ "/") with (String c (s' ++ "/")).
    cbn [join_slash]. destruct (s' ++ "/") as [|d r] eqn:E; [destruct s'; discriminate|]. rewrite IH. reflexivity.
  - induction s as [|c s IH]; [contradiction|]. cbn [join_slash]. destruct s as [|d s].
    + destruct (Ascii.eqb_spec c "/"%char) as [->|]; [exfalso; apply X; exists ""; reflexivity|reflexivity].
    + change (String c (String d s) ++ "/") with (String c (String d s ++ "/")). rewrite IH; [reflexivity|discriminate|].
      intros (s' & E). apply X. exists (String c s'). cbn. rewrite <- E. reflexivity.
Qed.
Lemma mapM_strings l : mapM (fun j => match j with JStr s => Ok s | _ => Err TypeError end) (map JStr l) = Ok l.
Proof. induction l as [|s l IH]; [reflexivity|]. cbn. rewrite IH. reflexivity. Qed.

(** The parameters a class is called with. *)
Definition given_to (glob : string -> list string) (src : string * params) (min_dp : Z) (cls : string) (p' : params) : Prop :=
  exists p1, get_dataloader glob (fst src) (snd src) min_dp = Ok (cls, p1) /\ add_default_params cls p1 = Ok p'.
Definition plain_class (cls : string) : Prop := forall p, add_default_params cls p = Ok (base_defaults cls p).
Lemma plain_no_table cls : plain_class cls -> ~ In cls table_classes.
Proof. intros H I. specialize (H []). cbn in I. repeat (destruct I as [<-|I]; [discriminate|]). exact I. Qed.
Definition fold_dflt (l : list (string * json)) (p : params) : params := fold_left (fun d kv => dflt (fst kv) (snd kv) d) l p.
Lemma sget_fold l : forall p k, sget (fold_dflt l p) k = match sget p k with Some v => Some v | None => sget l k end.
Proof.
  induction l as [|[a v] l IH]; intros p k; [cbn; destruct (sget p k); reflexivity|].
  change (fold_dflt ((a, v) :: l) p) with (fold_dflt l (dflt a v p)). rewrite IH, sget_dflt. cbn [sget].
  destruct (String.eqb_spec k a) as [->|]; [destruct (sget p a); reflexivity|reflexivity].
Qed.
Definition base_list (cls : string) : list (string * json) :=
  [("dataloader_name", JStr cls); ("data_name", JNull); ("downsample_factors", JArr [JInt 1; JInt 1]); ("aggregate_type", JStr "MEAN"); ("min_dp", JInt 5);
          ("in_proj", JStr "EPSG:4326"); ("out_proj", JStr "EPSG:4326"); ("x_col", JStr "lat"); ("y_col", JStr "long"); ("fast_reprojection", JBool false)].
Lemma sget_base cls p k : sget (base_defaults cls p) k = match sget p k with Some v => Some v | None => sget (base_list cls) k end.
Proof. rewrite <- sget_fold. unfold base_defaults, fold_dflt, base_list. cbn [fold_left fst snd]. cbv zeta. reflexivity. Qed.
Record ready (p' : params) (files : list string) (src : string * params) (col : string) (f : feed) : Prop := {
  rd_files : attr_files p' = Ok files;
  rd_name : exists o, attr_name p' = Ok o /\ match o with None => f_name f = col | Some n => n = f_name f /\ ~ In n ["lat"; "long"; "time"] end;
  rd_agg : attr_text p' "aggregate_type" = Ok (f_agg f);
  rd_agg' : sget p' "aggregate_type" = Some (JStr (f_agg f));
  rd_min : attr_int p' "min_dp" = Ok (f_min f);
  rd_proj : exists s, attr_text p' "in_proj" = Ok s /\ attr_text p' "out_proj" = Ok s;
  rd_cols : exists x y, attr_text p' "x_col" = Ok x /\ attr_text p' "y_col" = Ok y;
  rd_factors : attr_factors p' = Ok (1, 1);
  rd_units : sget p' "units" = sget (snd src) "units" }.
Lemma made_ready0 glob (src : string * params) min_dp name cls files col f : same_name (fst src) name -> lower name = name -> In (name, (cls, ["files"])) requirements -> plain_class cls ->
  dict_ok (snd src) -> names (snd src) col (f_name f) -> text_or (snd src) "aggregate_type" "MEAN" (f_agg f) -> f_min f = min_dp ->
  (exists s, text_or (snd src) "in_proj" "EPSG:4326" s /\ text_or (snd src) "out_proj" "EPSG:4326" s) ->
  (exists s, text_or (snd src) "x_col" "lat" s) -> (exists s, text_or (snd src) "y_col" "long" s) ->
  (sget (snd src) "downsample_factors" = None \/ sget (snd src) "downsample_factors" = Some (JArr [JInt 1; JInt 1])) -> lists_files glob (snd src) files ->
  exists p', given_to glob src min_dp cls p' /\ ready p' files src col f.
Proof.
  intros Sn Ln Rq Pc D Na Ag Mi Pr Xc Yc Fa Lf. destruct src as [nm p]. cbn [fst snd] in *.
  assert (T : exists q, translate_file_input glob p = Ok q /\ sget q "files" = Some (JArr (map JStr files)) /\ forall k, ~ In k ["file"; "folder"; "files"] -> sget q k = sget p k).
  { assert (T : exists q, translate_file_input glob p = Ok q).
    { unfold lists_files in Lf. unfold translate_file_input. destruct (sget p "file"); [eauto|]. destruct (sget p "folder"); [|eauto]. destruct Lf as (s & dir & -> & _). eauto. }
    destruct T as (q & T). exists q. split; [exact T|]. destruct (translate_spec glob p q D T) as (U & _ & F). split; [|exact U].
    unfold lists_files in Lf. destruct (sget p "file") as [v|].
    - destruct Lf as (g & -> & ->). apply F.
    - destruct (sget p "folder") as [v|].
      + destruct Lf as (s & dir & -> & -> & J). destruct F as (s' & [= <-] & F & _). rewrite (join_slash_spec s dir J) in F. exact F.
      + subst q. exact Lf. }
  destruct T as (q & T & Tf & Tu).
  destruct (factory_spec glob nm p min_dp q T) as (F & _). destruct (F cls ["files"]) as (p1 & E & N1 & N2 & O).
  { rewrite (lower_same_name _ _ Sn), Ln. exact Rq. }
  { intros r [<-|[]]. rewrite Tf. discriminate. }
  exists (base_defaults cls p1). split; [exists p1; split; [exact E|apply Pc]|].
  assert (G : forall k, ~ In k ["file"; "folder"; "files"; "dataloader_name"; "min_dp"] -> sget p1 k = sget p k).
  { intros k K. cbn in K. rewrite O by (intros ->; tauto). apply Tu. cbn. tauto. }
  assert (B : forall k, ~ In k ["file"; "folder"; "files"; "dataloader_name"; "min_dp"] -> sget (base_defaults cls p1) k = match sget p k with Some v => Some v | None =>
    sget (base_list cls) k end).
  { intros k K. rewrite sget_base, (G k K). reflexivity. }
  assert (TX : forall k d s, ~ In k ["file"; "folder"; "files"; "dataloader_name"; "min_dp"] -> text_or p k d s ->
    sget (base_list cls) k = Some (JStr d) ->
    sget (base_defaults cls p1) k = Some (JStr s)).
  { intros k d s K X Y. rewrite (B k K). unfold text_or in X. destruct (sget p k); [subst; reflexivity|]. rewrite Y, X. reflexivity. }
  assert (AT : forall k s, sget (base_defaults cls p1) k = Some (JStr s) -> attr_text (base_defaults cls p1) k = Ok s).
  { intros k s X. unfold attr_text, attr. rewrite X. reflexivity. }
  constructor.
  - unfold attr_files, attr. rewrite sget_base, O, Tf by discriminate. cbn [bind]. apply mapM_strings.
  - unfold attr_name, attr. rewrite B by (cbn; intuition discriminate). unfold names in Na. destruct (sget p "data_name") as [[]|]; cbn [sget String.eqb Ascii.eqb Bool.eqb bind];
      try (destruct Na as [Na _]; discriminate); eexists; (split; [reflexivity|]); cbn beta iota; try assumption.
    destruct Na as [[= ->] X]. split; [reflexivity|exact X].
  - apply AT. eapply TX; [|exact Ag|reflexivity]. cbn. intuition discriminate.
  - eapply TX; [|exact Ag|reflexivity]. cbn. intuition discriminate.
  - unfold attr_int, attr. rewrite sget_base, N2, Mi. reflexivity.
  - destruct Pr as (s & P1 & P2). exists s. split; apply AT; eapply TX; eauto; cbn; intuition discriminate.
  - destruct Xc as (x & Xc), Yc as (y & Yc). exists x, y. split; apply AT; eapply TX; eauto; cbn; intuition discriminate.
  - unfold attr_factors, attr. rewrite B by (cbn; intuition discriminate). destruct Fa as [->| ->]; reflexivity.
  - rewrite B by (cbn; intuition discriminate). cbn [snd]. destruct (sget p "units"); reflexivity.
Qed.

Lemma made_ready glob src min_dp name cls files col f : same_name (fst src) name -> lower name = name -> In (name, (cls, ["files"])) requirements -> plain_class cls ->
  settled (snd src) min_dp col f -> lists_files glob (snd src) files ->
  exists p', given_to glob src min_dp cls p' /\ ready p' files src col f.
Proof. intros Sn Ln Rq Pc [D Na Ag Kn Mi Pr (Xc & Yc) Fa Co Fi] Lf. eapply made_ready0; eauto. Qed.

(** ** Tables *)
Lemma nth_error_ext_map {A B} (f : A -> B) : forall d l, List.length l = List.length d -> (forall k p, nth_error d k = Some p -> nth_error l k = Some (f p)) -> l = map f d.
Proof.
  induction d as [|p d IH]; intros [|x l] Le H; try discriminate; [reflexivity|]. cbn [map]. specialize (H 0%nat p eq_refl) as H0. cbn in H0. injection H0 as ->. f_equal.
  apply IH; [injection Le; auto|]. intros k q E. apply (H (S k) q E).
Qed.
Lemma nodup_single (l : list string) c : NoDup l -> (forall x, In x l <-> x = c) -> l = [c].
Proof.
  intros N H. destruct l as [|a l]; [exfalso; apply (proj2 (H c) eq_refl)|]. assert (a = c) by (apply H; left; reflexivity). subst a.
  destruct l as [|e l]; [reflexivity|]. assert (e = c) by (apply H; right; left; reflexivity). subst e. inversion N; subst. exfalso. apply H2. left. reflexivity.
Qed.
Definition field (col c : string) (p : point) : entry :=
  if String.eqb c "lat" then ENum (Some (p_lat p)) else if String.eqb c "long" then ENum (Some (p_long p))
  else if String.eqb c "time" then match p_time p with Some z => EDay z | None => ENum None end else ENum (nth 0 (p_vals p) None).
(** A table column by column. *)
Definition fields (dated : bool) (col : string) (t : dframe) (d : data) : Prop :=
  NoDup (map fst t) /\ (forall c, In c (map fst t) <-> c = "lat" \/ c = "long" \/ c = col \/ (dated = true /\ c = "time")) /\
  (forall c, In c (map fst t) -> sget t c = Some (map (field col c) d)) /\
  forall p, In p d -> (exists v, p_vals p = [v]) /\ if dated then exists z, p_time p = Some z else p_time p = None.
Lemma in_sget (t : dframe) c l : NoDup (map fst t) -> In (c, l) t -> sget t c = Some l.
Proof. apply sget_in_nodup. Qed.
Lemma holds_fields dated col t d : ~ In col ["lat"; "long"; "time"] -> holds dated col t d -> fields dated col t d.
Proof.
  intros Nc ((N & W) & C & H). split; [exact N|]. split; [exact C|]. split.
  - intros c Ic. apply in_map_iff in Ic. destruct Ic as ([c' l] & X & I). cbn in X. subst c'. rewrite (in_sget t c l N I). f_equal.
    assert (U : forall k e, entry_at t k c e -> nth_error l k = Some e).
    { intros k e (l' & I' & E). apply (in_sget t c l' N) in I'. rewrite (in_sget t c l N I) in I'. injection I' as <-. exact E. }
    apply nth_error_ext_map; [apply (W c), I|]. intros k p E. apply U. destruct (H k p E) as (H1 & H2 & H3 & v & V & H4).
    assert (Cc : In c (map fst t)) by (apply in_map_iff; exists (c, l); auto). apply C in Cc. unfold field.
    cbn in Nc. destruct Cc as [->|[->|[->|[-> ->]]]].
    + exact H1.
    + exact H2.
    + destruct (String.eqb_spec col "lat"); [exfalso; apply Nc; auto|]. destruct (String.eqb_spec col "long"); [exfalso; apply Nc; auto|].
      destruct (String.eqb_spec col "time"); [exfalso; apply Nc; auto|]. rewrite V. exact H4.
    + cbn [String.eqb Ascii.eqb Bool.eqb]. destruct H3 as (z & -> & H3). exact H3.
  - intros p I. apply In_nth_error in I. destruct I as (k & E). destruct (H k p E) as (_ & _ & H3 & v & V & _). split; [eauto|]. destruct dated; [destruct H3 as (z & Z & _); eauto|exact H3].
Qed.
Lemma fields_names dated col t d : ~ In col ["lat"; "long"; "time"] -> fields dated col t d -> data_names t = [col].
Proof.
  intros Nc (N & C & _). apply nodup_single; [apply NoDup_filter, N|]. intros x. unfold data_names. rewrite filter_In, C, negb_true_iff. split.
  - intros [H S]. assert (Y : ~ (x = "lat" \/ x = "long" \/ x = "time")) by (intros Y; apply standard_iff in Y; congruence). tauto.
  - intros ->. split; [tauto|]. destruct (standard col) eqn:S; [|reflexivity]. apply standard_iff in S. exfalso. apply Nc. cbn. intuition.
Qed.
Lemma fields_points dated col t d : ~ In col ["lat"; "long"; "time"] -> fields dated col t d -> table_points t = d.
Proof.
  intros Nc F. assert (D := fields_names _ _ _ _ Nc F). destruct F as (N & C & G & V). unfold table_points.
  assert (R : n_rows t = List.length d).
  { destruct t as [|[c l] t]; [exfalso; apply (proj2 (C "lat")); auto|]. cbn [n_rows snd]. assert (X : sget ((c, l) :: t) c = Some l) by (cbn; rewrite String.eqb_refl; reflexivity).
    rewrite (G c) in X by (left; reflexivity). injection X as <-. apply map_length. }
  rewrite R. symmetry. rewrite <- (map_id d) at 1. assert (X : map (fun p => p) d = map (row_point t) (seq 0 (List.length d))).
  { symmetry. apply nth_error_ext_map; [rewrite map_length, seq_length; reflexivity|]. intros k p E.
    assert (K : (k < List.length d)%nat) by (apply nth_error_Some; congruence).
    rewrite nth_error_map, (nth_error_nth' (seq 0 (List.length d)) 0%nat) by (rewrite seq_length; exact K). rewrite seq_nth by exact K. cbn [option_map]. f_equal.
    unfold row_point. rewrite D. cbn [map].
    assert (Sg : forall c, In c (map fst t) -> match sget t c with Some l => nth (0 + k) l (ENum None) | None => ENum None end = field col c p).
    { intros c Ic. rewrite (G c Ic). apply nth_error_nth. rewrite nth_error_map. cbn [Nat.add]. rewrite E. reflexivity. }
    rewrite (Sg "lat"), (Sg "long"), (Sg col) by (apply C; auto). cbn in Nc.
    destruct (V p (nth_error_In _ _ E)) as ((v & Ve) & Te).
    assert (Fc : num (field col col p) = v).
    { unfold field. destruct (String.eqb_spec col "lat"); [exfalso; apply Nc; auto|]. destruct (String.eqb_spec col "long"); [exfalso; apply Nc; auto|].
      destruct (String.eqb_spec col "time"); [exfalso; apply Nc; auto|]. rewrite Ve. reflexivity. }
    rewrite Fc. cbn [field String.eqb Ascii.eqb Bool.eqb num].
    assert (Ft : match match sget t "time" with Some l => nth (0 + k) l (ENum None) | None => ENum None end with EDay z => Some z | ENum _ => None end = p_time p).
    { destruct dated.
      - rewrite (Sg "time") by (apply C; auto). destruct Te as (z & Te). unfold field. cbn [String.eqb Ascii.eqb Bool.eqb]. rewrite Te. reflexivity.
      - destruct (sget t "time") eqn:St; [|rewrite Te; reflexivity]. exfalso. assert (It : In "time" (map fst t)) by (apply ParamProofs.sget_in in St; apply in_map_iff; eexists; split; [|exact St]; reflexivity).
        apply C in It. destruct It as [It|[It|[It|[It _]]]]; try discriminate. apply Nc. auto. }
    rewrite Ft. destruct p. cbn in *. subst. reflexivity. }
  exact X.
Qed.
Lemma distinct_in l c : In c (distinct l) <-> In c l.
Proof.
  induction l as [|a l IH]; [reflexivity|]. cbn [distinct In]. rewrite filter_In, IH, negb_true_iff. split.
  - intros [->|[H _]]; auto.
  - intros [->|H]; [auto|]. destruct (String.eqb_spec c a) as [->|]; auto.
Qed.
Lemma distinct_nodup l : NoDup (distinct l).
Proof.
  induction l as [|a l IH]; [constructor|]. cbn [distinct]. constructor; [|apply NoDup_filter, IH]. rewrite filter_In, String.eqb_refl. intros [_ H]. discriminate.
Qed.
Lemma sget_tab {V} (f : string -> V) l c : In c l -> sget (map (fun c => (c, f c)) l) c = Some (f c).
Proof. induction l as [|a l IH]; [intros []|]. cbn. intros H. destruct (String.eqb_spec c a) as [->|]; [reflexivity|]. apply IH. destruct H; congruence. Qed.
Lemma concat_fields dated col ts ds : ts <> [] -> Forall2 (fields dated col) ts ds -> exists t, concat_tables ts = Ok t /\ fields dated col t (List.concat ds).
Proof.
  intros Ne F. unfold concat_tables. destruct ts as [|t0 ts0] eqn:Et; [contradiction|]. rewrite <- Et in *. eexists. split; [reflexivity|].
  set (cs := List.concat (map (map fst) ts)). assert (M : map fst (map (fun c => (c, List.concat (map (part_of_column c) ts))) (distinct cs)) = distinct cs).
  { rewrite map_map. cbn [fst]. apply map_id. }
  assert (C : forall c, In c cs <-> c = "lat" \/ c = "long" \/ c = col \/ dated = true /\ c = "time").
  { intros c. unfold cs. rewrite in_concat. split.
    - intros (l & Il & Ic). apply in_map_iff in Il. destruct Il as (t & <- & It). destruct (Forall2_in_l _ _ _ _ F It) as (d & _ & (_ & C & _)). apply C, Ic.
    - intros H. subst ts. inversion F as [|? d ? ? (_ & C & _)]; subst. exists (map fst t0). split; [left; reflexivity|apply C, H]. }
  split; [rewrite M; apply distinct_nodup|]. split; [intros c; rewrite M, distinct_in; apply C|]. split.
  - intros c Ic. rewrite M in Ic. rewrite sget_tab by exact Ic. f_equal. apply distinct_in, C in Ic. clear - F Ic.
    rewrite concat_map. f_equal. induction F as [|t d ts ds (_ & C & G & _) F IH]; [reflexivity|]. cbn [map]. f_equal; [|exact IH].
    unfold part_of_column. rewrite (G c); [reflexivity|]. apply C, Ic.
  - intros p I. apply in_concat in I. destruct I as (d & Id & Ip). destruct (Forall2_in_r _ _ _ _ F Id) as (t & _ & (_ & _ & _ & V)). apply V, Ip.
Qed.
Lemma fields_wf dated col t d : fields dated col t d -> well_formed (List.length d) t.
Proof.
  intros (N & _ & G & _). split; [exact N|]. intros c l I. assert (X := in_sget t c l N I). rewrite (G c) in X by (apply in_map_iff; exists (c, l); auto).
  injection X as <-. apply map_length.
Qed.

(** ** Sources from csv files *)
Lemma trim_plain b : plain_region b -> (long_min b < long_max b)%Q /\ times_ok (time_range b).
Proof. intros (_ & L & _ & _ & T). auto. Qed.
Lemma belongs_range b d (P : point -> Prop) : plain_region b -> (forall p, In p d -> belongs b p) -> longs_in_range P d.
Proof.
  intros (R1 & R2 & R3 & _) H p I _. destruct (H p I) as [[M _] _]. cbn [region x0 x1] in M. destruct (qltb_spec (long_min b) (long_max b)); lra.
Qed.
Lemma construct_df_same b d : plain_region b -> (forall p, In p d -> belongs b p) -> construct_df b d = Ok d.
Proof.
  intros R H. destruct (construct_df_ok b d R (belongs_range b d _ R H)) as (d' & E & [[_ S]|[_ ->]]); [|exact E]. rewrite E. f_equal.
  apply ConstructProofs.selected_all in H. exact (TrimProofs.selected_unique _ _ _ _ S H).
Qed.
Lemma csv_supplied glob sq proj read_csv open_nc b min_dp k src f : plain_region b -> csv_feed glob read_csv min_dp src f ->
  exists f', supplies glob (construct_source sq proj read_csv open_nc) sq b min_dp k src f' /\ agree b f' f.
Proof.
  intros R (col & dated & files & ds & Sn & St & Nc & Lf & Ne & Fd & X & Dt).
  destruct (made_ready glob src min_dp "scalar_csv" "ScalarCSVDataLoader" files col f Sn eq_refl) as (p' & (p1 & E1 & E2) & Rd); auto.
  { cbn. tauto. } { intros p. reflexivity. }
  assert (T : exists ts, mapM read_csv files = Ok ts /\ Forall2 (fields dated col) ts ds).
  { clear - Fd Nc. induction Fd as [|file d files ds (t & Er & H) Fd IH]; [exists []; split; [reflexivity|constructor]|].
    destruct IH as (ts & E & F). exists (t :: ts). split; [cbn; rewrite Er, E; reflexivity|]. constructor; [apply holds_fields; assumption|exact F]. }
  destruct T as (ts & Em & Ft).
  assert (Nt : ts <> []) by (intros ->; inversion Ft; subst; inversion Fd; subst; contradiction).
  destruct (concat_fields dated col ts ds Nt Ft) as (t & Ec & Fc). assert (P := fields_points _ _ _ _ Nc Fc). assert (W := fields_wf _ _ _ _ Fc). assert (Dn := fields_names _ _ _ _ Nc Fc).
  assert (Tr : exists t', trim_table b t = Ok t' /\ data_names t' = [col]).
  { destruct Fc as (_ & C & G & _). unfold trim_table, column_of. rewrite (G "lat"), (G "long") by (apply C; auto). cbn [bind]. eexists. split; [reflexivity|]. rewrite keep_names. exact Dn. }
  destruct Tr as (t' & Et & Dn'). destruct (trim_plain b R) as (L & Tk).
  assert (S := C72_csv_trim b _ t t' L Tk W Et). rewrite P in S.
  apply (TrimProofs.selected_weaken _ (belongs b)) in S.
  2: { intros p I. split; [tauto|]. intros B. split; [exact B|]. intros Ic. destruct Fc as (_ & C & _ & V). destruct (V p I) as (_ & V').
       destruct dated; [destruct V' as (z & ->); discriminate|]. apply C in Ic. exfalso. destruct Ic as [Ic|[Ic|[Ic|[Ic _]]]]; try discriminate.
       apply Nc. subst col. cbn. auto. }
  assert (B : forall p, In p (table_points t') -> belongs b p) by (intros p I; apply (selected_In _ _ _ p S) in I; apply I).
  exists (mkFeed (f_name f) (f_xr f) (f_agg f) (f_min f) (f_conds f) (f_fill f) (table_points t')).
  split; [|repeat split; auto; intros; cbn [f_data] in *; rewrite Dt in *; apply (selected_within (belongs b) (belongs a) _ _ (fun p => inside_belongs b a p H) S); assumption].
  destruct Rd as [Rf (o & Rn & Rn') Ra Ra' Rm (s & Ri & Ro) (x & y & Rx & Ry) Rfa Ru]. destruct St. cbn [f_name f_xr f_agg f_min f_conds f_fill f_data].
  split; [|split; [exact st_known|split; [exact st_min|split; [exact st_conds|exact st_fill]]]].
  exists "ScalarCSVDataLoader", p1, p'. split; [exact E1|]. split; [exact E2|]. split; [|split; [exact Ra'|cbn; intuition discriminate]].
  unfold construct_source. cbn [String.eqb Ascii.eqb Bool.eqb]. unfold construct_csv.
  rewrite Rf. cbn [bind]. rewrite Em. cbn [bind]. rewrite Ec. cbn [bind]. rewrite Et. cbn [bind]. rewrite Ri. cbn [bind]. rewrite Ro. cbn [bind]. rewrite Rx. cbn [bind]. rewrite Ry. cbn [bind].
  unfold reproject. rewrite String.eqb_refl. cbn [bind]. rewrite Rn. cbn [bind].
  assert (Nm : exists nt, name_source_df o t' = Ok nt /\ fst nt = f_name f /\ table_points (snd nt) = table_points t').
  { destruct (name_points o t' col Dn') as (nt & En & Pn). { intros n ->. apply Rn'. }
    exists nt. split; [exact En|]. split; [|exact Pn]. unfold name_source_df, set_name_df, get_name_df in En. rewrite Dn' in En. cbn [only_name bind] in En.
    destruct o as [n|]; injection En as <-; [apply Rn'|symmetry; exact Rn']. }
  destruct Nm as (nt & En & Fn & Pn). rewrite En. cbn [bind]. rewrite Pn, (construct_df_same b _ R B). cbn [bind]. rewrite Ra. cbn [bind]. rewrite Rm. cbn [bind]. rewrite Fn.
  unfold feed_loader. cbn [f_xr f_name f_agg f_min]. rewrite X. reflexivity.
Qed.

(** ** Sources from netCDF files *)
Lemma selected_rest {A} (P : A -> Prop) all sel : selected P all sel -> exists rest, Permutation (sel ++ rest)%list all /\ forall x, In x rest -> ~ P x.
Proof.
  intros S. induction S as [|x l l' Px S (rest & Pm & N)|x l l' Px S (rest & Pm & N)].
  - exists []. split; [constructor|intros ? []].
  - exists rest. split; [cbn; constructor; exact Pm|exact N].
  - exists (x :: rest). split; [|intros y [<-|I]; auto]. rewrite <- Permutation_middle. constructor. exact Pm.
Qed.
Lemma selected_app_none {A} (P : A -> Prop) got rest : (forall x, In x got -> P x) -> (forall x, In x rest -> ~ P x) -> selected P (got ++ rest)%list got.
Proof.
  intros G N. induction got as [|x got IH]; cbn [app].
  - induction rest as [|y rest IH]; constructor; [apply N; left; reflexivity|apply IH; intros; apply N; right; auto].
  - constructor; [apply G; left; reflexivity|apply IH; intros; apply G; right; auto].
Qed.
Lemma reordered {A} (P : A -> Prop) all sel got : selected P all sel -> Permutation got sel ->
  (forall x, In x got -> P x) /\ exists d, Permutation d all /\ selected P d got.
Proof.
  intros S Pm. assert (G : forall x, In x got -> P x).
  { intros x I. apply (Permutation_in _ Pm) in I. apply (selected_In _ _ _ x S) in I. apply I. }
  split; [exact G|]. destruct (selected_rest P all sel S) as (rest & Pr & N). exists (got ++ rest)%list. split; [|apply selected_app_none; assumption].
  rewrite <- Pr. apply Permutation_app_tail. exact Pm.
Qed.
Lemma trim_keeps_order b g ds' : plain_region b -> ordered g -> period_given b g -> xr_trim b g = Ok ds' -> ordered ds' /\ period_given b ds'.
Proof.
  intros (_ & L & _) O P E. destruct (xr_trim_ordered b g ds' O (or_introl L) E) as (O' & T). split; [exact O'|]. intros N. apply P, T, N.
Qed.
Lemma construct_xr_same b ds : plain_region b -> ordered ds -> period_given b ds -> (forall p, In p (xr_points ds) -> belongs b p) ->
  exists ds', construct_xr b ds = Ok ds' /\ xr_points ds' = xr_points ds.
Proof.
  intros R O P H. destruct (construct_xr_ok b ds R O P (belongs_range b _ _ R H)) as (ds' & E & [[_ S]|[_ ->]]); [|eauto]. exists ds'. split; [exact E|].
  apply ConstructProofs.selected_all in H. exact (TrimProofs.selected_unique _ _ _ _ S H).
Qed.

(** What an import achieves, whichever the loader. *)
Definition got_from (b : boundary) (ds' : xrds) (all : data -> Prop) : Prop :=
  ordered ds' /\ period_given b ds' /\ (forall p, In p (xr_points ds') -> belongs b p) /\ exists d, all d /\ selected (belongs b) d (xr_points ds').
Lemma dated_moved b ds : dated b ds -> dated b (sortby_long (assign_long ds)).
Proof. intros [A B]. split; assumption. Qed.
Lemma moved_ordered b ds : increasing (x_lat ds) -> dated b ds -> ordered (sortby_long (assign_long ds)).
Proof. intros A [B _]. split; [exact A|]. split; [apply (sorted_increasing (assign_long ds))|exact B]. Qed.
Lemma taken_got convert b ds ds' : imported convert b (xr_points ds) (xr_points ds') -> ordered ds' -> period_given b ds' -> got_from b ds' (taken convert ds).
Proof.
  intros (all & sel & F & S & P) O G. destruct (reordered _ _ _ _ S P) as (B & d & Pd & Sd).
  split; [exact O|]. split; [exact G|]. split; [exact B|]. exists d. split; [|exact Sd]. exists all. auto.
Qed.
Lemma era5_got f b ds : plain_region b -> decreasing (x_lat ds) -> dated b ds -> exists ds', import_era5 f b ds = Ok ds' /\ got_from b ds' (taken f ds).
Proof.
  intros R D T. destruct (era5_ok f b ds R D T) as (ds' & E & I). exists ds'. split; [exact E|].
  unfold import_era5, reverse_lat in E. cbn [x_lat map_vals sortby_long assign_long] in E. rewrite (decreasing_dup _ D) in E. cbn [bind] in E.
  destruct T as [T1 T2]. eapply trim_keeps_order in E; [|exact R| |exact T2].
  - destruct E. apply taken_got; assumption.
  - split; [apply decreasing_rev, D|]. split; [apply (sorted_increasing (assign_long ds))|exact T1].
Qed.
Lemma magnitude_eq sq convert l : (forall l, magnitude sq l (convert l)) -> convert l = wind_mag sq l.
Proof. intros H. specialize (H l). unfold magnitude in H. unfold wind_mag. destruct l as [|[u|] [|[v|] [|w l]]]; exact H. Qed.
Lemma import_got sq open_nc b (src : string * params) files p' name cls kept ds d col vars : plain_region b -> dated b ds -> sget p' "units" = sget (snd src) "units" ->
  grid_loader sq b (snd src) files name cls kept ds d -> open_nc cls kept = Ok (vars, ds) -> variable name vars col ->
  exists ds', import_grid sq open_nc cls p' b files = Ok ([col], ds') /\ got_from b ds' (grid_loader sq b (snd src) files name cls kept ds).
Proof.
  intros R T U G O V. assert (Tp : period_given b ds) by exact (proj2 T).
  assert (Map : forall (A B : data -> Prop) ds', (forall d, A d -> B d) -> got_from b ds' A -> got_from b ds' B).
  { intros A B ds' I (G1 & G2 & G3 & d' & G4 & G5). split; [exact G1|]. split; [exact G2|]. split; [exact G3|]. exists d'. auto. }
  assert (By : forall l, in_period b files l -> by_date b files = Ok l).
  { intros l (first & last & C1 & C2 & Tr & N & Ne & Pk). unfold by_date. rewrite Tr.
    assert (E := C67_era5 first last files l C1 C2 N Pk). destruct l; [contradiction|exact E]. }
  destruct G; unfold import_grid; unfold variable in V.
  - cbn [String.eqb Ascii.eqb Bool.eqb] in V. subst vars. cbn [String.eqb Ascii.eqb Bool.eqb]. rewrite O. cbn [bind fst snd].
    destruct (C69_plain b ds R H H0 T) as (ds' & E & S). rewrite E. cbn [bind]. exists ds'. split; [reflexivity|].
    destruct (trim_keeps_order b ds ds' R) as (O' & P'); [|exact Tp|exact E|]. { split; [exact H|]. split; [exact H0|apply T]. }
    split; [exact O'|]. split; [exact P'|]. split; [intros p I; apply (selected_In _ _ _ p S) in I; apply I|]. exists (xr_points ds). split; [constructor; auto|exact S].
  - cbn [String.eqb Ascii.eqb Bool.eqb] in V. subst vars. cbn [String.eqb Ascii.eqb Bool.eqb]. rewrite O. cbn [bind fst snd].
    destruct (C69_reversed_partial b ds R H H0 T) as (ds' & sel & E & S & Pm). rewrite E. cbn [bind]. exists ds'. split; [reflexivity|].
    unfold import_reversed, reverse_lat in E. rewrite (decreasing_dup _ H) in E. cbn [bind] in E.
    assert (K := E). eapply trim_keeps_order in K; [|exact R|split; [apply decreasing_rev, H|]; split; [exact H0|apply T]|exact Tp]. destruct K as (O' & P').
    destruct (reordered _ _ _ _ S Pm) as (B & d' & Pd & Sd). split; [exact O'|]. split; [exact P'|]. split; [exact B|]. exists d'. split; [constructor; auto|exact Sd].
  - cbn [String.eqb Ascii.eqb Bool.eqb] in V. subst vars. cbn [String.eqb Ascii.eqb Bool.eqb]. rewrite O. cbn [bind fst snd].
    destruct (C69_bsose_depth_partial b ds R H T) as (ds' & E & I). rewrite E. cbn [bind]. exists ds'. split; [reflexivity|].
    destruct (moved_ordered b ds H T) as (M1 & M2 & M3).
    assert (K := E). eapply trim_keeps_order in K; [|exact R|split; [exact M1|]; split; [exact M2|exact M3]|exact Tp]. destruct K as (O' & P').
    apply (Map (taken (each (fun x => -1 * x)%Q) ds)); [intros d' K; constructor; assumption|]. apply taken_got; assumption.
  - cbn [String.eqb Ascii.eqb Bool.eqb] in V. subst vars. cbn [String.eqb Ascii.eqb Bool.eqb existsb]. rewrite O.
    destruct (moved_ordered b ds H T) as (M1 & M2 & M3).
    assert (X : exists u ds', attr_units p' = Ok u /\ import_bsose_ice u b ds = Ok ds' /\ imported convert b (xr_points ds) (xr_points ds')).
    { unfold attr_units. rewrite U. unfold ice_units in H0. destruct (sget (snd src) "units") as [v|] eqn:Ev.
      - destruct H0 as [[-> ->]|[-> ->]].
        + exists (Some "percentage"). destruct (C69_bsose_ice_partial (Some "percentage") b ds R H T) as (A & _). destruct (A (or_intror eq_refl)) as (ds' & E & I). exists ds'. auto.
        + exists (Some "fraction"). destruct (C69_bsose_ice_partial (Some "fraction") b ds R H T) as (_ & A & _). destruct (A eq_refl) as (ds' & E & I). exists ds'. auto.
      - subst convert. exists None. destruct (C69_bsose_ice_partial None b ds R H T) as (A & _). destruct (A (or_introl eq_refl)) as (ds' & E & I). exists ds'. auto. }
    destruct X as (u & ds' & -> & E & I). cbn [bind fst snd]. rewrite E. cbn [bind]. exists ds'. split; [reflexivity|].
    unfold import_bsose_ice in E. destruct (xr_trim b (sortby_long (assign_long ds))) as [tr|] eqn:Et; [|discriminate]. cbn [bind] in E.
    assert (K := Et). eapply trim_keeps_order in K; [|exact R|split; [exact M1|]; split; [exact M2|exact M3]|exact Tp]. destruct K as ((O1 & O2 & O3) & P').
    assert (OP : ordered ds' /\ period_given b ds').
    { destruct u as [s|].
      - destruct (String.eqb s "percentage"); [injection E as <-; split; [split; [exact O1|split; [exact O2|exact O3]]|exact P']|].
        destruct (String.eqb s "fraction"); [|discriminate]. injection E as <-. split; [split; [exact O1|split; [exact O2|exact O3]]|exact P'].
      - injection E as <-. split; [split; [exact O1|split; [exact O2|exact O3]]|exact P']. }
    apply (Map (taken convert ds)); [intros d' K; econstructor; eauto|]. apply taken_got; tauto.
  - destruct (era5_got (fun l => l) b ds R H1 T) as (ds' & E & G). exists ds'.
    assert (Nv : vars = [col]) by (repeat destruct H as [[= <- <-]|H]; try exact V; destruct H). subst vars.
    split; [|apply (Map (taken (fun l => l) ds)); [intros d' K; econstructor; eauto|exact G]].
    repeat destruct H as [[= <- <-]|H]; try destruct H; cbn [String.eqb Ascii.eqb Bool.eqb existsb era5_waves orb]; rewrite (By kept H0); cbn [bind]; rewrite O; cbn [bind snd fst]; rewrite E; reflexivity.
  - cbn [String.eqb Ascii.eqb Bool.eqb existsb era5_waves orb] in *. subst col. destruct (era5_got (wind_mag sq) b ds R H0 T) as (ds' & E & G). exists ds'.
    split; [rewrite (By kept H); cbn [bind]; rewrite O; cbn [bind snd fst]; rewrite E; reflexivity|].
    apply (Map (taken (wind_mag sq) ds)); [|exact G]. intros d' K. apply (gl_wind _ _ _ _ (wind_mag sq)); auto.
    intros l. rewrite <- (magnitude_eq sq convert l H1). apply H1.
Qed.
Definition known_loader (name cls : string) : bool :=
  String.eqb (lower name) name && negb (String.eqb cls "ScalarCSVDataLoader") &&
  match sget requirements name with Some (c, [r]) => String.eqb c cls && String.eqb r "files" | _ => false end &&
  negb (existsb (String.eqb cls) ["ShapeDataLoader"; "VectorShapeDataLoader"; "ScalarGRFDataLoader"; "VectorGRFDataLoader"; "AMSRDataLoader"; "LutGeoJSON"; "LutShapefile"]) &&
  negb (existsb (String.eqb cls) lut_classes).
Lemma known_loader_ok name cls : known_loader name cls = true ->
  lower name = name /\ In (name, (cls, ["files"])) requirements /\ plain_class cls /\ cls <> "ScalarCSVDataLoader".
Proof.
  unfold known_loader. rewrite !andb_true_iff, !negb_true_iff. intros ((((A & B) & C) & D) & E). apply String.eqb_eq in A. apply String.eqb_neq in B.
  split; [exact A|]. split; [|split; [|exact B]].
  - destruct (sget requirements name) as [[c [|r [|? ?]]]|] eqn:G; try discriminate. apply andb_true_iff in C as (C1 & C2). apply String.eqb_eq in C1, C2. subst c r. exact (ParamProofs.sget_in _ _ _ G).
  - cbn [existsb] in D. repeat (apply orb_false_iff in D; destruct D as (?H & D)). intros p. unfold add_default_params.
    repeat match goal with H : String.eqb cls _ = false |- _ => rewrite H; clear H end. cbn [orb]. rewrite E. reflexivity.
Qed.
Lemma loader_known sq b p files name cls kept ds d : grid_loader sq b p files name cls kept ds d ->
  lower name = name /\ In (name, (cls, ["files"])) requirements /\ plain_class cls /\ cls <> "ScalarCSVDataLoader".
Proof.
  intros G. apply known_loader_ok. destruct G; try (vm_compute; reflexivity). repeat destruct H as [[= <- <-]|H]; try destruct H; vm_compute; reflexivity.
Qed.
Lemma grid_supplied glob sq proj read_csv open_nc b min_dp k src f : plain_region b -> grid_feed glob open_nc sq b min_dp src f ->
  exists f' g, supplies glob (construct_source sq proj read_csv open_nc) sq b min_dp k src f' /\ agree b f' g /\ grid_feed glob open_nc sq b min_dp src g /\ f_name g = f_name f.
Proof.
  intros R (name & cls & col & vars & files & kept & ds & Sn & St & Lf & Op & Va & Nc & Da & Gl & X).
  destruct (loader_known _ _ _ _ _ _ _ _ _ Gl) as (Ln & Rq & Pc & Ncsv).
  destruct (made_ready glob src min_dp name cls files col f Sn Ln Rq Pc St Lf) as (p' & (p1 & E1 & E2) & Rd).
  destruct Rd as [Rf (o & Rn & Rn') Ra Ra' Rm (s & Ri & Ro) (x & y & Rx & Ry) Rfa Ru].
  destruct (import_got sq open_nc b src files p' name cls kept ds (f_data f) col vars R Da Ru Gl Op Va) as (ds' & Ei & (Or & Pe & Be & d & Gd & Sd)).
  destruct (construct_xr_same b ds' R Or Pe Be) as (ds'' & Ec & Pp).
  exists (mkFeed (f_name f) (f_xr f) (f_agg f) (f_min f) (f_conds f) (f_fill f) (xr_points ds')), (mkFeed (f_name f) (f_xr f) (f_agg f) (f_min f) (f_conds f) (f_fill f) d).
  assert (Stt := St). destruct St. split; [|split; [|split; [|reflexivity]]].
  - cbn [f_name f_xr f_agg f_min f_conds f_fill f_data].
    split; [|split; [exact st_known|split; [exact st_min|split; [exact st_conds|exact st_fill]]]].
    exists cls, p1, p'. split; [exact E1|]. split; [exact E2|]. split; [|split; [exact Ra'|exact (plain_no_table _ Pc)]].
    unfold construct_source. destruct (String.eqb_spec cls "ScalarCSVDataLoader") as [->|_]; [contradiction|]. unfold construct_grid, construct_dataset.
    rewrite Rf. cbn [bind]. rewrite Ei. cbn [bind snd fst]. rewrite Rfa. cbn [bind]. rewrite Ra. cbn [bind]. rewrite Rm. cbn [bind].
    unfold downsample. cbn [fst snd Z.eqb Pos.eqb andb bind]. rewrite Ri. cbn [bind]. rewrite Ro. cbn [bind]. rewrite Rn. cbn [bind]. rewrite String.eqb_refl.
    assert (Nm : name_source_xr o [col] ds' = Ok (f_name f)).
    { unfold name_source_xr, set_name_xr, get_name_xr. cbn [map fst only_name bind]. destruct o as [n|]; [|rewrite Rn'; reflexivity]. destruct Rn' as (-> & Nn).
      unfold rename_xr. cbn [forallb fst sget map]. 
      assert (I1 : existsb (String.eqb col) (coords_of ds' ++ [col])%list = true) by (rewrite existsb_app; cbn [existsb]; rewrite String.eqb_refl, orb_true_r; reflexivity).
      rewrite I1. cbn [andb negb]. 
      assert (C : forall c, In c (coords_of ds') -> In c ["lat"; "long"; "time"]) by (intros c; unfold coords_of; destruct (x_time ds'); cbn; tauto).
      assert (I2 : repeats (map (fun n => match (if String.eqb n col then Some (f_name f) else None) with Some m => m | None => n end) (coords_of ds' ++ [col])%list) = false).
      { rewrite map_app. cbn [map]. rewrite String.eqb_refl.
        assert (I3 : map (fun n => match (if String.eqb n col then Some (f_name f) else None) with Some m => m | None => n end) (coords_of ds') = coords_of ds').
        { rewrite <- (map_id (coords_of ds')) at 2. apply map_ext_in. intros c Ic. destruct (String.eqb_spec c col) as [->|]; [exfalso; apply Nc, C, Ic|reflexivity]. }
        rewrite I3. unfold coords_of. cbn in Nn. destruct (x_time ds'); cbn [app repeats existsb];
          repeat match goal with |- context [String.eqb ?a (f_name f)] => destruct (String.eqb_spec a (f_name f)); [exfalso; apply Nn; auto|] end; reflexivity. }
      rewrite I2. reflexivity. }
    rewrite Nm. cbn [bind]. rewrite Ec. cbn [bind]. rewrite Pp. unfold feed_loader. cbn [f_xr f_name f_agg f_min]. rewrite X. reflexivity.
  - repeat split; auto; intros; cbn [f_data] in *; apply (selected_within (belongs b) (belongs a) _ _ (fun p => inside_belongs b a p H) Sd); assumption.
  - exists name, cls, col, vars, files, kept, ds. split; [exact Sn|]. split; [constructor; assumption|]. repeat (split; [assumption|]). exact X.
Qed.

(** ** The whole way *)
Lemma described_supplied glob sq proj read_csv open_nc b min_dp k src f : plain_region b -> describes glob read_csv open_nc sq b min_dp src f ->
  exists f' g, supplies glob (construct_source sq proj read_csv open_nc) sq b min_dp k src f' /\ agree b f' g /\ describes glob read_csv open_nc sq b min_dp src g /\ f_name g = f_name f.
Proof.
  intros R [D|D].
  - destruct (csv_supplied glob sq proj read_csv open_nc b min_dp k src f R D) as (f' & S & A). exists f', f. split; [exact S|]. split; [exact A|]. split; [left; exact D|reflexivity].
  - destruct (grid_supplied glob sq proj read_csv open_nc b min_dp k src f R D) as (f' & g & S & A & G & N). exists f', g. split; [exact S|]. split; [exact A|]. split; [right; exact G|exact N].
Qed.
Lemma all_supplied glob sq proj read_csv open_nc b min_dp : plain_region b -> forall srcs k,
  (forall src, In src srcs -> exists f, describes glob read_csv open_nc sq b min_dp src f /\ ~ In (f_name f) own_keys) ->
  exists fs gs, List.length fs = List.length srcs /\
    (forall i src f, nth_error srcs i = Some src -> nth_error fs i = Some f -> supplies glob (construct_source sq proj read_csv open_nc) sq b min_dp (k + i) src f) /\
    Forall2 (agree b) fs gs /\ Forall2 (describes glob read_csv open_nc sq b min_dp) srcs gs /\ forall f, In f fs -> ~ In (f_name f) own_keys.
Proof.
  intros R. induction srcs as [|src srcs IH]; intros k H.
  - exists [], []. split; [reflexivity|]. split; [intros [|i] ? ? E; discriminate|]. repeat split; try constructor. intros f [].
  - destruct (H src (or_introl eq_refl)) as (f & D & N). destruct (described_supplied glob sq proj read_csv open_nc b min_dp k src f R D) as (f' & g & Su0 & A & Dg & Ng).
    destruct (IH (S k)) as (fs & gs & Le & Su & Ag & De & Na); [intros; apply H; right; auto|].
    exists (f' :: fs), (g :: gs). split; [cbn; rewrite Le; reflexivity|]. split.
    { intros [|i] s0 f0 E1 E2; cbn in E1, E2.
      - injection E1 as <-. injection E2 as <-. rewrite Nat.add_0_r. exact Su0.
      - replace (k + S i)%nat with (S k + i)%nat by lia. apply Su; assumption. }
    split; [constructor; assumption|]. split; [constructor; assumption|]. intros f0 [<-|I]; [|apply Na, I]. destruct A as (A & _). rewrite A, Ng. exact N.
Qed.

(** Proofs about the random fields as sources (C95). *)
From Coq Require Import Permutation.
From Verif Require Import Base Geo Graph Cell Loaders AddLoader VecLoader Builder Env Spec MeshSpec EnvSpec DataSpec QLib Construct ConstructSpec Names PyStr StrLib Config ConfigSpec Params ParamSpec
  Downsample Pipeline PipeSpec Sources SourcesSpec VecHomSpec MixSpec VecSources VecSourcesSpec
  TrimProofs XrProofs ConstructProofs ParamProofs NamesProofs PipeProofs SourcesProofs MixProofs VecSourcesProofs Shapes ShapeProofs PropsShape ShapeSources ShapeSourcesSpec ShapeSourcesProofs AllSources TableSpec
  Grf GrfSpec GrfProofs PropsGrf EnvJson GrfSources GrfSourcesSpec.
From Verif Require NamesSpec ShapeSpec.
Open Scope string_scope.
Open Scope Z_scope.

(** ** Parameters *)
Definition grf_first : list (string * json) := [("seed", JNull); ("size", JInt 512); ("alpha", JInt 3)].
Definition grf_rest (binary : bool) : list (string * json) :=
  if binary then [("min", JInt 0); ("max", JInt 1); ("threshold", JFloat (1#2))]
  else [("min", JInt (-10)); ("max", JInt 10); ("threshold", JArr [JInt 0; JInt 1]); ("multiplier", JInt 1); ("offset", JInt 0)].
Definition grf_name (binary : bool) : string := if binary then "binary_data" else "scalar_data".
Lemma first_fold q : fold_dflt grf_first q = dflt "alpha" (JInt 3) (dflt "size" (JInt 512) (dflt "seed" JNull q)).
Proof. reflexivity. Qed.
Lemma grf_base_fold cls p : grf_base cls p = fold_dflt grf_first (base_defaults cls p).
Proof. rewrite first_fold. reflexivity. Qed.
Lemma grf_values_of cls p binary : sget p "binary" = Some (JBool binary) -> exists p', scalar_grf_defaults cls p = Ok p' /\
  (forall k, k <> "data_name" -> sget p' k = match sget p k with Some v => Some v | None => match sget (base_list cls) k with Some v => Some v | None => sget (grf_first ++ grf_rest binary)%list k end end) /\
  sget p' "data_name" = match sget p "data_name" with None | Some JNull => Some (JStr (grf_name binary)) | x => x end.
Proof.
  intros B. exists (fold_dflt (grf_rest binary) (named (grf_name binary) (fold_dflt grf_first (base_defaults cls p)))).
  split; [|split].
  - rewrite grf_form, B, grf_base_fold. generalize (fold_dflt grf_first (base_defaults cls p)). intros q. cbn [py_true]. destruct binary; reflexivity.
  - intros k N. rewrite sget_fold, named_other, sget_fold, sget_base, EnvJson.sget_app by exact N. destruct (sget p k); [reflexivity|]. destruct (sget (base_list cls) k); [reflexivity|]. reflexivity.
  - rewrite sget_fold, sget_named, sget_fold, sget_base. destruct (sget p "data_name") as [[]|]; reflexivity.
Qed.

Lemma source_unfiled glob (src : string * params) min_dp name cls req : same_name (fst src) name -> lower name = name -> unfiled (snd src) -> In (name, (cls, req)) requirements ->
  (forall r, In r req -> sget (snd src) r <> None /\ r <> "dataloader_name" /\ r <> "min_dp") ->
  exists p1, get_dataloader glob (fst src) (snd src) min_dp = Ok (cls, p1) /\ sget p1 "dataloader_name" = Some (JStr name) /\ sget p1 "min_dp" = Some (JInt min_dp) /\
    forall k, ~ In k ["dataloader_name"; "min_dp"] -> sget p1 k = sget (snd src) k.
Proof.
  destruct src as [nm p]. cbn [fst snd]. intros Sn Ln (U1 & U2) I H.
  assert (T : translate_file_input glob p = Ok p) by (unfold translate_file_input; rewrite U1, U2; reflexivity).
  destruct (factory_spec glob nm p min_dp p T) as (F & _). destruct (F cls req) as (p1 & E & N1 & N2 & O).
  { rewrite (lower_same_name _ _ Sn), Ln. exact I. } { intros r Ir. apply H, Ir. }
  rewrite (lower_same_name _ _ Sn), Ln in N1. exists p1. split; [exact E|]. split; [exact N1|]. split; [exact N2|]. intros k K. cbn [In] in K. apply O; intros ->; tauto.
Qed.
Definition grf_read (p p' : params) (binary : bool) : Prop :=
  forall k, ~ In k ["dataloader_name"; "min_dp"; "data_name"] -> sget p' k = match sget p k with Some v => Some v | None => match sget (base_list "ScalarGRFDataLoader") k with Some v => Some v | None => sget (grf_first ++ grf_rest binary)%list k end end.
Lemma grf_given glob (src : string * params) min_dp name binary : In name ["scalar_grf"; "binary_grf"] -> same_name (fst src) name -> unfiled (snd src) -> sget (snd src) "binary" = Some (JBool binary) ->
  exists p', given_to glob src min_dp "ScalarGRFDataLoader" p' /\ sget p' "min_dp" = Some (JInt min_dp) /\ grf_read (snd src) p' binary /\
    sget p' "data_name" = match sget (snd src) "data_name" with None | Some JNull => Some (JStr (grf_name binary)) | x => x end.
Proof.
  intros I Sn Un B.
  destruct (source_unfiled glob src min_dp name "ScalarGRFDataLoader" ["binary"] Sn) as (p1 & E & N1 & N2 & O).
  { cbn [In] in I. destruct I as [<-|[<-|[]]]; reflexivity. } { exact Un. } { cbn [In] in I. destruct I as [<-|[<-|[]]]; vm_compute; tauto. }
  { intros r [<-|[]]. rewrite B. repeat split; discriminate. }
  assert (B1 : sget p1 "binary" = Some (JBool binary)) by (rewrite O by (cbn; intuition discriminate); exact B).
  destruct (grf_values_of "ScalarGRFDataLoader" p1 binary B1) as (p' & D & V & Nm). exists p'. split; [exists p1; split; [exact E|exact D]|]. split; [rewrite V, N2 by discriminate; reflexivity|]. split.
  - intros k K. cbn [In] in K. rewrite V, O by (cbn; intuition congruence). reflexivity.
  - rewrite Nm, O by (cbn; intuition discriminate). reflexivity.
Qed.
Definition vgrf_rest : list (string * json) := [("min", JInt 0); ("max", JInt 10)].
Definition vgrf_read (p p' : params) : Prop :=
  forall k, ~ In k ["dataloader_name"; "min_dp"; "data_name"; "vec_x"; "vec_y"] -> sget p' k = match sget p k with Some v => Some v | None => match sget (base_list "VectorGRFDataLoader") k with Some v => Some v | None => sget (grf_first ++ vgrf_rest)%list k end end.
Lemma vec_step_ok k v p x d : sget p k = match v with Some j => Some j | None => None end -> (match v with None => x = d | Some j => j = JStr x end) ->
  exists q, vec_step k (Ok (JStr d)) p = Ok q /\ sget q k = Some (JStr x) /\ forall k', k' <> k -> sget q k' = sget p k'.
Proof.
  intros E H. unfold vec_step, given. rewrite E. destruct v as [j|].
  - subst j. exists p. auto.
  - subst x. eexists. split; [reflexivity|]. rewrite ParamProofs.sget_sset, String.eqb_refl. split; [reflexivity|]. intros k' N. rewrite ParamProofs.sget_sset. destruct (String.eqb_spec k' k); [contradiction|reflexivity].
Qed.
Lemma vgrf_given glob (src : string * params) min_dp a c x y : same_name (fst src) "vector_grf" -> unfiled (snd src) ->
  vector_names (snd src) ["uC"; "vC"] [a; c] -> no_comma a -> no_comma c -> text_or (snd src) "vec_x" a x -> text_or (snd src) "vec_y" c y ->
  exists p', given_to glob src min_dp "VectorGRFDataLoader" p' /\ sget p' "min_dp" = Some (JInt min_dp) /\ vgrf_read (snd src) p' /\
    sget p' "data_name" = Some (JStr (String.concat "," [a; c])) /\ sget p' "vec_x" = Some (JStr x) /\ sget p' "vec_y" = Some (JStr y).
Proof.
  intros Sn Un Na Ca Cc Tx Ty.
  destruct (source_unfiled glob src min_dp "vector_grf" "VectorGRFDataLoader" [] Sn) as (p1 & E & N1 & N2 & O); [reflexivity|exact Un|vm_compute; tauto|intros r []|].
  assert (F : forall k, k <> "data_name" -> sget (named "uC,vC" (grf_base "VectorGRFDataLoader" p1)) k =
     match sget p1 k with Some v => Some v | None => match sget (base_list "VectorGRFDataLoader") k with Some v => Some v | None => sget grf_first k end end).
  { intros k N. rewrite named_other by exact N. rewrite grf_base_fold, sget_fold, sget_base. destruct (sget p1 k); reflexivity. }
  set (n := named "uC,vC" (grf_base "VectorGRFDataLoader" p1)) in *.
  assert (Nn : sget n "data_name" = Some (JStr (String.concat "," [a; c]))).
  { unfold n. rewrite sget_named. rewrite grf_base_fold, sget_fold, sget_base, O by (cbn; intuition discriminate).
    unfold vector_names in Na. destruct (sget (snd src) "data_name") as [[]|]; try (injection Na as -> ->; reflexivity); destruct Na as [[= Na] _]; rewrite ?Na; try reflexivity; discriminate. }
  assert (Sp : split "," (String.concat "," [a; c]) = [a; c]) by (apply split_back; [reflexivity|]; intros m [<-|[<-|[]]]; assumption).
  assert (V0 : vec_part n 0 = Ok (JStr a)) by (unfold vec_part; rewrite Nn, Sp; reflexivity).
  assert (V1 : vec_part n 1 = Ok (JStr c)) by (unfold vec_part; rewrite Nn, Sp; reflexivity).
  destruct (vec_step_ok "vec_x" (sget (snd src) "vec_x") n x a) as (q & Q1 & Q2 & Q3).
  { rewrite F, O by (cbn; intuition discriminate). destruct (sget (snd src) "vec_x"); reflexivity. } { unfold text_or in Tx. destruct (sget (snd src) "vec_x"); exact Tx. }
  destruct (vec_step_ok "vec_y" (sget (snd src) "vec_y") q y c) as (r & R1 & R2 & R3).
  { rewrite Q3, F, O by (cbn; intuition discriminate). destruct (sget (snd src) "vec_y"); reflexivity. } { unfold text_or in Ty. destruct (sget (snd src) "vec_y"); exact Ty. }
  exists (fold_dflt vgrf_rest r).
  assert (D : add_default_params "VectorGRFDataLoader" p1 = Ok (fold_dflt vgrf_rest r)).
  { change (add_default_params "VectorGRFDataLoader" p1) with (vector_grf_defaults "VectorGRFDataLoader" p1). rewrite vgrf_form. cbv zeta. fold n. rewrite V0, V1, Q1. cbn [bind]. rewrite R1. reflexivity. }
  split; [exists p1; split; [exact E|exact D]|].
  split; [rewrite sget_fold, R3, Q3, F, N2 by discriminate; reflexivity|]. split.
  - intros k K. cbn [In] in K. rewrite sget_fold, R3, Q3, F, O, EnvJson.sget_app by (cbn; intuition congruence). destruct (sget (snd src) k); [reflexivity|]. destruct (sget (base_list _) k); reflexivity.
  - split; [rewrite sget_fold, R3, Q3, Nn by discriminate; reflexivity|]. split; [rewrite sget_fold, R3, Q2 by discriminate; reflexivity|rewrite sget_fold, R2; reflexivity].
Qed.

(** What the constructors read, when a name has been chosen. *)
Record chosen (p' : params) (name agg : string) (min_dp : Z) : Prop := {
  ch_name : attr_name p' = Ok (Some name);
  ch_agg : attr_text p' "aggregate_type" = Ok agg;
  ch_agg' : sget p' "aggregate_type" = Some (JStr agg);
  ch_min : attr_int p' "min_dp" = Ok min_dp;
  ch_proj : exists s, attr_text p' "in_proj" = Ok s /\ attr_text p' "out_proj" = Ok s;
  ch_factors : attr_factors p' = Ok (1, 1) }.
Lemma chosen_reads p p' cls name agg min_dp :
  (forall k, In k ["aggregate_type"; "in_proj"; "out_proj"; "downsample_factors"] -> sget p' k = match sget p k with Some v => Some v | None => sget (base_list cls) k end) ->
  sget p' "min_dp" = Some (JInt min_dp) -> sget p' "data_name" = Some (JStr name) -> text_or p "aggregate_type" "MEAN" agg ->
  (exists s, text_or p "in_proj" "EPSG:4326" s /\ text_or p "out_proj" "EPSG:4326" s) ->
  (sget p "downsample_factors" = None \/ sget p "downsample_factors" = Some (JArr [JInt 1; JInt 1])) -> chosen p' name agg min_dp.
Proof.
  intros B M Na Ag (s & P1 & P2) Fa.
  assert (TX : forall k d t, In k ["aggregate_type"; "in_proj"; "out_proj"; "downsample_factors"] -> text_or p k d t -> sget (base_list cls) k = Some (JStr d) -> sget p' k = Some (JStr t)).
  { intros k d t K X Y. rewrite (B k K). unfold text_or in X. destruct (sget p k); [subst; reflexivity|]. rewrite Y, X. reflexivity. }
  assert (AT : forall k t, sget p' k = Some (JStr t) -> attr_text p' k = Ok t) by (intros k t X; unfold attr_text, attr; rewrite X; reflexivity).
  constructor.
  - unfold attr_name, attr. rewrite Na. reflexivity.
  - apply AT. eapply TX; [|exact Ag|reflexivity]. cbn. tauto.
  - eapply TX; [|exact Ag|reflexivity]. cbn. tauto.
  - unfold attr_int, attr. rewrite M. reflexivity.
  - exists s. split; apply AT; eapply TX; eauto; cbn; tauto.
  - unfold attr_factors, attr. rewrite B by (cbn; tauto). destruct Fa as [->| ->]; reflexivity.
Qed.
Lemma seed_read p p' seed : seed_or p seed -> sget p' "seed" = match sget p "seed" with Some v => Some v | None => Some JNull end -> attr p' "seed" = Ok seed.
Proof. intros (S & _) E. unfold attr. rewrite E. destruct (sget p "seed"); subst; reflexivity. Qed.
Lemma alpha_read p p' alpha : exponent_or p alpha -> sget p' "alpha" = match sget p "alpha" with Some v => Some v | None => Some (JInt 3) end -> attr p' "alpha" = Ok alpha.
Proof. intros (S & _) E. unfold attr. rewrite E. destruct (sget p "alpha"); subst; reflexivity. Qed.
Lemma half_read p p' k q : number_or p k (1#2) q -> sget p' k = match sget p k with Some v => Some v | None => Some (JFloat (1#2)) end -> attr_number p' k = Ok q.
Proof. intros N E. unfold attr_number, attr. rewrite E. unfold number_or in N. destruct (sget p k) as [j|]; [inversion N; reflexivity|]. subst q. reflexivity. Qed.

(** ** Data *)
Lemma grf_made b size vals : plain_region b -> 2 <= size -> List.length vals = (Z.to_nat size * Z.to_nat size)%nat ->
  exists g, grf_grid size vals b = Ok g /\ linspace true (lat_min b) (lat_max b) size = Ok (g_lat g) /\ linspace true (long_min b) (long_max b) size = Ok (g_long g) /\ map p_vals (grid_rows g) = vals.
Proof.
  intros R S0 L. unfold grf_grid. destruct (Z.leb_spec size 0); [lia|].
  destruct (linspace_ok true (lat_min b) (lat_max b) size ltac:(lia)) as (lat & E1 & L1 & _). destruct (linspace_ok true (long_min b) (long_max b) size ltac:(lia)) as (long & E2 & L2 & _).
  rewrite E1, E2. cbn [bind]. eexists. split; [reflexivity|]. cbn [g_lat g_long]. split; [reflexivity|]. split; [reflexivity|]. apply grid_vals; assumption.
Qed.
Lemma spread_again b size vals g d : 2 <= size -> linspace true (lat_min b) (lat_max b) size = Ok (g_lat g) -> linspace true (long_min b) (long_max b) size = Ok (g_long g) -> map p_vals (grid_rows g) = vals ->
  Permutation d (grid_rows g) -> spread_out b size vals d.
Proof.
  intros S0 L1 L2 M P. exists (g_lat g), (g_long g), (grid_rows g). split; [apply linspace_axis; [lia|exact L1]|]. split; [apply linspace_axis; [lia|exact L2]|]. split; [apply grid_rows_spec|]. auto.
Qed.
Lemma binary_field p size t l : sget p "binary" = Some (JBool true) -> number_or p "threshold" (1#2) t -> uneven l ->
  field_values p l "binary_data" (map (fun v => [v]) (grf_values (mkGrf size true t 0 0 0 0 0) l)).
Proof.
  intros B Ht U. destruct (C71_field l U) as (h & E & R & _). eapply (fv_binary p l t h); [exact B|exact Ht|exact R|].
  pose proof (C71_binary (mkGrf size true t 0 0 0 0 0) l h eq_refl E U) as X. cbn [r_t0] in X. revert X. generalize (grf_values (mkGrf size true t 0 0 0 0 0) l). clear. intros vs X.
  induction X as [|y v h vs (X1 & X2) X IH]; constructor; [|exact IH]. split; intros H; [rewrite (X1 H)|rewrite (X2 H)]; reflexivity.
Qed.
Lemma scalar_field p size t0 t1 lo hi m a l : sget p "binary" = Some (JBool false) -> thresholds_or p t0 t1 -> (t0 < t1)%Q -> (t0 < 1)%Q -> (0 < t1)%Q ->
  number_or p "min" (-10) lo -> number_or p "max" 10 hi -> number_or p "multiplier" 1 m -> number_or p "offset" 0 a -> uneven l ->
  field_values p l "scalar_data" (map (fun v => [v]) (grf_values (mkGrf size false t0 t1 lo hi m a) l)).
Proof.
  intros B Ht T1 T2 T3 Hlo Hhi Hm Ha U. destruct (C71_scalar_partial (mkGrf size false t0 t1 lo hi m a) l eq_refl U T1 T2 T3) as (h & c' & s' & E & Li & Re & Ev).
  destruct (C71_field l U) as (h' & E' & R & _). rewrite E in E'. injection E' as <-.
  eapply (fv_scalar p l t0 t1 lo hi m a h c' s'); try assumption. rewrite Ev, map_map. cbn [r_mult r_offset]. clear. induction s' as [|x s' IH]; constructor; [|exact IH]. eexists. split; reflexivity.
Qed.
Lemma vector_field cos sin p size lo hi l t : number_or p "min" 0 lo -> number_or p "max" 10 hi -> List.length l = List.length t -> uneven l -> uneven t ->
  vector_field_values cos sin p l t (grf_vector cos sin (mkGrf size false 0 0 lo hi 0 0) l t).
Proof.
  intros Hlo Hhi Le Ul Ut. set (g := mkGrf size false 0 0 lo hi 0 0).
  destruct (C71_field l Ul) as (ms & Em & Rm' & _). destruct (C71_field t Ut) as (ts & Ets & Rts & _).
  assert (Lm : List.length ms = List.length l) by (destruct Rm' as (? & ? & _ & F & _); apply GrfProofs.Forall2_len in F; exact F).
  assert (Lts : List.length ts = List.length t) by (destruct Rts as (? & ? & _ & F & _); apply GrfProofs.Forall2_len in F; exact F).
  apply (vfv cos sin p l t lo hi (map (fun x => x * (hi - lo) + lo)%Q ms) ts _ Hlo Hhi (rescaled_map lo hi l ms Rm') Rts).
  - rewrite vector_length, map_length by congruence. congruence.
  - rewrite map_length. intros i Hi. unfold grf_vector. rewrite Em, Ets.
    set (h := fun md : Q * Q => _). rewrite (nth_indep _ [] (h (0, 0)%Q)) by (rewrite map_length, combine_length; lia). rewrite (map_nth h), combine_nth by congruence.
    unfold h. cbn [fst snd r_max r_min g]. rewrite (nth_indep (map _ ms) 0%Q ((fun x => x * (hi - lo) + lo)%Q 0%Q)) by (rewrite map_length; exact Hi). rewrite (map_nth (fun x => x * (hi - lo) + lo)%Q). reflexivity.
Qed.
Lemma field_read p p' binary l0 col vals0 size l : field_values p l0 col vals0 -> sget p "binary" = Some (JBool binary) -> grf_read p p' binary -> uneven l ->
  exists g, read_grf p' size = Ok g /\ r_size g = size /\ field_values p l col (map (fun v => [v]) (grf_values g l)).
Proof.
  intros F B V U. destruct F as [t g vals Hb Ht _ _|t0 t1 lo hi m a g c s vals Hb Ht T1 T2 T3 Hlo Hhi Hm Ha _ _ _ _]; rewrite B in Hb; injection Hb as ->.
  - exists (mkGrf size true t 0 0 0 0 0). split; [|split; [reflexivity|]].
    + unfold read_grf. unfold attr at 1. rewrite V, B by (cbn; intuition discriminate). cbn [bind py_true].
      rewrite (half_read p p' "threshold" t Ht) by (rewrite V by (cbn; intuition discriminate); reflexivity). reflexivity.
    + exact (binary_field p size t l B Ht U).
  - exists (mkGrf size false t0 t1 lo hi m a). split; [|split; [reflexivity|]].
    + unfold read_grf. unfold attr at 1. rewrite V, B by (cbn; intuition discriminate). cbn [bind py_true].
      assert (At : attr_thresholds p' = Ok (t0, t1)).
      { unfold attr_thresholds, attr. rewrite V by (cbn; intuition discriminate). unfold thresholds_or in Ht. destruct (sget p "threshold") as [j|].
        - destruct Ht as (x & y & -> & X & Y). cbn [bind]. inversion X; inversion Y; reflexivity.
        - destruct Ht as (-> & ->). reflexivity. }
      rewrite At. cbn [bind fst snd].
      rewrite (number_read p p' "min" (-10) lo Hlo) by (rewrite V by (cbn; intuition discriminate); reflexivity). cbn [bind].
      rewrite (number_read p p' "max" 10 hi Hhi) by (rewrite V by (cbn; intuition discriminate); reflexivity). cbn [bind].
      rewrite (number_read p p' "multiplier" 1 m Hm) by (rewrite V by (cbn; intuition discriminate); reflexivity). cbn [bind].
      rewrite (number_read p p' "offset" 0 a Ha) by (rewrite V by (cbn; intuition discriminate); reflexivity). reflexivity.
    + apply scalar_field; assumption.
Qed.

(** ** Scalars *)
Lemma field_supplied glob sq proj noise construct b min_dp k src f : plain_region b -> noisy noise ->
  (forall p, construct k "ScalarGRFDataLoader" p b = construct_grf sq proj noise k p b) -> field_feed noise b min_dp src f ->
  exists f' g, supplies glob construct sq b min_dp k src f' /\ agree b f' g /\ field_feed noise b min_dp src g /\ f_name g = f_name f.
Proof.
  intros R Hn Hc (name & k0 & seed & size & alpha & l0 & col & vals0 & In0 & Sn & Un & Se & (Si & S2) & Al & _ & Fv & St & _ & X).
  assert (B : exists binary, sget (snd src) "binary" = Some (JBool binary) /\ col = grf_name binary) by (destruct Fv; [exists true|exists false]; auto). destruct B as (binary & B & Ec).
  destruct (grf_given glob src min_dp name binary In0 Sn Un B) as (p' & (p1 & E1 & E2) & Mi & V & Nm).
  destruct Al as (Al & (q & Aq)). assert (Al' : exponent_or (snd src) alpha) by (split; [exact Al|exists q; exact Aq]). assert (Se' := Se). destruct Se' as (_ & Sk).
  destruct (Hn k 0%nat seed size alpha q Sk S2 Aq) as (l & El & Ll & Ul).
  destruct (field_read (snd src) p' binary l0 col vals0 size l Fv B V Ul) as (g & Eg & Es & Fv').
  assert (Ch : chosen p' (f_name f) (f_agg f) min_dp).
  { destruct St. eapply (chosen_reads (snd src) p' "ScalarGRFDataLoader"); try eassumption.
    - intros r I. cbn [In] in I. repeat (destruct I as [<-|I]; [rewrite V by (cbn; intuition discriminate); destruct (sget (snd src) _); reflexivity|]). destruct I.
    - rewrite Nm. unfold names in st_name. destruct (sget (snd src) "data_name") as [[]|]; try (rewrite st_name, Ec; reflexivity); destruct st_name as [-> _]; reflexivity. }
  assert (Nc : ~ In (f_name f) ["lat"; "long"; "time"]).
  { destruct St. unfold names in st_name. destruct (sget (snd src) "data_name") as [[]|]; try (rewrite st_name, Ec; destruct binary; cbn; intuition discriminate); apply st_name. }
  destruct (grf_made b size (map (fun v => [v]) (grf_values g l)) R S2) as (gr & Eg' & L1 & L2 & Mv).
  { rewrite map_length, values_length. exact Ll. }
  assert (Rb := R). destruct Rb as (_ & R2 & _ & R4 & _).
  destruct (grid_made b gr R) as (ds & ds' & Ex & Pm & Ecx & Sub & Sel).
  { eapply linspace_no_dup; [|exact L1]. lra. } { eapply linspace_no_dup; [|exact L2]. lra. } { intros x I. eapply longs_between; [|exact L2|exact I]. lra. }
  exists (mkFeed (f_name f) (f_xr f) (f_agg f) (f_min f) (f_conds f) (f_fill f) (xr_points ds')), (mkFeed (f_name f) (f_xr f) (f_agg f) (f_min f) (f_conds f) (f_fill f) (xr_points ds)).
  assert (Stt := St). destruct St. destruct Ch as [Rn Ra Ra' Rm (t & Ri & Ro) Rfa]. split; [|split; [|split; [|reflexivity]]].
  - cbn [f_name f_xr f_agg f_min f_conds f_fill f_data].
    split; [|split; [exact st_known|split; [exact st_min|split; [exact st_conds|exact st_fill]]]].
    exists "ScalarGRFDataLoader", p1, p'. split; [exact E1|]. split; [exact E2|]. split; [|split; [exact Ra'|cbn; intuition discriminate]].
    cbn [f_data]. rewrite Hc. unfold construct_grf.
    rewrite (seed_read (snd src) p' seed Se) by (rewrite V by (cbn; intuition discriminate); reflexivity). cbn [bind].
    rewrite (whole_read (snd src) p' "size" 512 size Si) by (rewrite V by (cbn; intuition discriminate); reflexivity). cbn [bind].
    rewrite (alpha_read (snd src) p' alpha Al') by (rewrite V by (cbn; intuition discriminate); reflexivity). cbn [bind].
    rewrite El. cbn [bind]. rewrite Eg. cbn [bind]. unfold import_scalar_grf. rewrite Es, Eg'. cbn [bind]. rewrite Ex. cbn [bind].
    unfold construct_dataset. rewrite Rfa. cbn [bind]. rewrite Ra. cbn [bind]. rewrite Rm. cbn [bind fst snd].
    unfold downsample. cbn [fst snd Z.eqb Pos.eqb andb bind]. rewrite Ri. cbn [bind]. rewrite Ro. cbn [bind]. rewrite Rn. cbn [bind]. rewrite String.eqb_refl.
    rewrite (named_scalar (Some (f_name f)) "data" (f_name f) ds) by (try (split; [reflexivity|exact Nc]); cbn; intuition discriminate). cbn [bind]. rewrite Ecx. cbn [bind].
    unfold feed_loader. cbn [f_xr f_name f_agg f_min]. rewrite X, st_min. reflexivity.
  - repeat split; auto; intros; cbn [f_data] in *; apply Sel; assumption.
  - exists name, k, seed, size, alpha, l, col, (map (fun v => [v]) (grf_values g l)). repeat (split; [first [exact Fv' | assumption | split; assumption | constructor; assumption]|]).
    split; [|exact X]. cbn [f_data]. eapply spread_again; eassumption.
Qed.

(** ** Vectors *)
Lemma vector_field_supplied glob sq cos sin noise construct b min_dp k src v : plain_region b -> noisy noise -> fit_names (v_names v) ->
  (forall p, construct k "VectorGRFDataLoader" p b = construct_vector_grf sq cos sin noise k p b) -> vector_field_feed cos sin noise b min_dp src v ->
  exists v' w, provides glob construct sq b min_dp k src (Vector v') /\ vagree b v' w /\ vector_field_feed cos sin noise b min_dp src w /\ v_names w = v_names v.
Proof.
  intros R Hn Fn Hc (k0 & seed & size & alpha & l0 & t0 & cols & vals0 & Sn & Un & Se & (Si & S2) & Al & _ & _ & Fv & St & Co & _ & X & Cn).
  assert (Co' := Co). destruct Co' as (x & y & a & c & Ecol & En & Tx & Ty & Nxy & Ncol).
  assert (Vn := vs_name _ _ _ _ St). rewrite En in Vn. assert (Fc := proj2 Fn). rewrite En in Fc.
  destruct (vgrf_given glob src min_dp a c x y Sn Un Vn) as (p' & (p1 & E1 & E2) & Mi & V & Nm & Nx & Ny); [apply Fc; cbn; tauto|apply Fc; cbn; tauto|exact Tx|exact Ty|].
  destruct Al as (Al & (q & Aq)). assert (Al' : exponent_or (snd src) alpha) by (split; [exact Al|exists q; exact Aq]). assert (Se' := Se). destruct Se' as (_ & Sk).
  destruct (Hn k 0%nat seed size alpha q Sk S2 Aq) as (l & El & Ll & Ul). destruct (Hn k 1%nat seed size alpha q Sk S2 Aq) as (t & Et & Lt & Ut).
  destruct Fv as [lo hi ms0 ts0 vals0 Hlo Hhi _ _ _ _].
  set (g := mkGrf size false 0 0 lo hi 0 0).
  set (vals := grf_vector cos sin g l t).
  assert (Fv' : vector_field_values cos sin (snd src) l t vals) by (apply vector_field; [exact Hlo|exact Hhi|congruence|exact Ul|exact Ut]).
  destruct (grf_made b size vals R S2) as (gr & Eg' & L1 & L2 & Mv).
  { unfold vals. rewrite vector_length by congruence. exact Ll. }
  assert (Ch : chosen p' (String.concat "," (v_names v)) (v_agg v) min_dp).
  { destruct St. eapply (chosen_reads (snd src) p' "VectorGRFDataLoader"); try eassumption.
    - intros r I. cbn [In] in I. repeat (destruct I as [<-|I]; [rewrite V by (cbn; intuition discriminate); destruct (sget (snd src) _); reflexivity|]). destruct I.
    - rewrite En. exact Nm. }
  pose proof (given_names _ _ _ _ St) as Gn. destruct (vs_two _ _ _ _ St) as (_ & L2').
  assert (Rb := R). destruct Rb as (_ & R2 & _ & R4 & _).
  destruct (grid_made b gr R) as (ds & ds' & Ex & Pm & Ecx & Sub & Sel).
  { eapply linspace_no_dup; [|exact L1]. lra. } { eapply linspace_no_dup; [|exact L2]. lra. } { intros z I. eapply longs_between; [|exact L2|exact I]. lra. }
  exists (mkVFeed (v_names v) (v_xr v) (v_agg v) (v_min v) (v_conds v) (xr_points ds')), (mkVFeed (v_names v) (v_xr v) (v_agg v) (v_min v) (v_conds v) (xr_points ds)).
  assert (Stt := St). destruct St. destruct Ch as [Rn Ra Ra' Rm (s & Ri & Ro) Rfa]. split; [|split; [|split; [|reflexivity]]].
  - cbn [provides v_names v_xr v_agg v_min v_conds v_data].
    split; [|split; [exact vs_known|split; [exact vs_min|split; [intros _; exact Cn|split; [|split; [exact vs_conds|exact vs_fill]]]]]].
    + exists "VectorGRFDataLoader", p1, p'. split; [exact E1|]. split; [exact E2|]. split; [|split; [exact Ra'|cbn; intuition discriminate]].
      rewrite Hc. unfold construct_vector_grf.
      rewrite (seed_read (snd src) p' seed Se) by (rewrite V by (cbn; intuition discriminate); reflexivity). cbn [bind].
      rewrite (whole_read (snd src) p' "size" 512 size Si) by (rewrite V by (cbn; intuition discriminate); reflexivity). cbn [bind].
      rewrite (alpha_read (snd src) p' alpha Al') by (rewrite V by (cbn; intuition discriminate); reflexivity). cbn [bind].
      rewrite El. cbn [bind]. rewrite Et. cbn [bind].
      rewrite (number_read (snd src) p' "min" 0 lo Hlo) by (rewrite V by (cbn; intuition discriminate); reflexivity). cbn [bind].
      rewrite (number_read (snd src) p' "max" 10 hi Hhi) by (rewrite V by (cbn; intuition discriminate); reflexivity). cbn [bind].
      unfold import_vector_grf. fold g. fold vals. change (r_size g) with size. rewrite Eg'. cbn [bind]. rewrite Ex. cbn [bind].
      unfold attr_text at 1, attr. rewrite Nx. cbn [bind]. unfold attr_text at 1, attr. rewrite Ny. cbn [bind].
      unfold construct_vector_dataset. rewrite Rfa. cbn [bind]. rewrite Ra. cbn [bind]. rewrite Rm. cbn [bind fst snd].
      unfold downsample. cbn [fst snd Z.eqb Pos.eqb andb bind]. rewrite Ri. cbn [bind]. rewrite Ro. cbn [bind]. rewrite Rn. cbn [bind]. rewrite String.eqb_refl.
      rewrite (named_grid (Some (String.concat "," (v_names v))) [x; y] v ds).
      * cbn [bind]. rewrite (names_two _ L2'). cbn [bind]. rewrite Ecx. cbn [bind]. unfold vfeed_loader. cbn [v_xr v_names v_agg]. rewrite X. reflexivity.
      * split; [constructor; [intros [H|[]]; congruence|constructor; [intros []|constructor]]|]. intros n I. apply nonstandard, Ncol. rewrite Ecol. exact I.
      * intros n I. apply no_comma_chars, Ncol. rewrite Ecol. exact I.
      * reflexivity.
      * exact L2'.
      * exact Fn.
      * exact Gn.
      * split; [reflexivity|]. rewrite En. intros I. cbn [String.concat] in I. clear - I. do 5 (try destruct a as [|? a]); cbn in I; intuition discriminate.
    + intros p I. rewrite L2'. apply Sub in I. apply (Permutation_in _ Pm) in I.
      assert (Iv : In (p_vals p) vals) by (rewrite <- Mv; apply in_map; exact I). unfold vals, grf_vector in Iv. destruct (random_field l) as [ms|]; [|apply repeat_spec in Iv; rewrite Iv; reflexivity]. destruct (random_field t) as [ts|]; [|apply repeat_spec in Iv; rewrite Iv; reflexivity]. apply in_map_iff in Iv as (md & <- & _). reflexivity.
  - unfold vagree. cbn [v_names v_xr v_agg v_min v_conds v_data]. repeat (split; [reflexivity|]). intros z pts Ia. apply Sel; assumption.
  - exists k, seed, size, alpha, l, t, cols, vals. repeat (split; [first [exact Fv' | assumption | split; assumption | constructor; assumption]|]).
    split; [|split; [exact X|exact Cn]]. cbn [v_data]. eapply spread_again; eassumption.
Qed.

(** ** With all other sources *)
Lemma offers_every o edge sq cos sin noise proj glob dsin dcos read_csv open_nc read_table read_shapes b min_dp k src s :
  offers o edge sq glob (construct_all o edge sq dsin dcos proj read_csv open_nc read_table read_shapes) b min_dp k src s ->
  offers o edge sq glob (construct_every sq cos sin proj noise o edge dsin dcos read_csv open_nc read_table read_shapes) b min_dp k src s.
Proof.
  assert (X : forall cls p r, construct_all o edge sq dsin dcos proj read_csv open_nc read_table read_shapes k cls p b = Ok r ->
    construct_every sq cos sin proj noise o edge dsin dcos read_csv open_nc read_table read_shapes k cls p b = Ok r).
  { intros cls p r E. unfold construct_every. destruct (String.eqb_spec cls "ScalarGRFDataLoader") as [->|N1]; [|destruct (String.eqb_spec cls "VectorGRFDataLoader") as [->|N2]; [|exact E]];
      exfalso; unfold construct_all, construct_any, construct_source, construct_grid, import_grid in E; cbn [String.eqb Ascii.eqb Bool.eqb existsb vector_classes era5_waves table_classes orb] in E;
      (destruct (attr_files p); [|discriminate]); discriminate. }
  destruct s as [[f|v]|t]; cbn [offers provides]; intros ((cls & p & p' & S1 & S2 & S3 & S4) & R); (split; [|exact R]); exists cls, p, p'; (split; [exact S1|]); (split; [exact S2|]); (split; [apply X; exact S3|exact S4]).
Qed.

(** Proofs about the sea ice of AMSR, IceNet and Visual_Ice as sources (C96). *)
From Coq Require Import Permutation.
From Verif Require Import Shapes ShapeProofs Base Geo Graph Cell Loaders AddLoader VecLoader Builder Env Spec MeshSpec EnvSpec DataSpec QLib Construct ConstructSpec ConstructProofs Names PyStr Dates DateSpec CalProofs Config ConfigSpec Params ParamSpec ParamProofs
  Files FilesSpec FilesProofs PropsFiles Downsample Import Forecast ForecastSpec ForecastProofs Reproject ReprojectSpec ReprojectProofs Pipeline PipeSpec ConfigProofs PipeProofs Sources SourcesSpec SourcesProofs MixSpec MixProofs VecSources
  Lut LutFiles LutSources AllSources TableSpec WholeSpec Grf GrfSources IceSources IceSourcesSpec.
Open Scope string_scope.
Open Scope Z_scope.

(** ** Parameters *)
Definition filed : list string := ["file"; "folder"; "files"; "dataloader_name"; "min_dp"].
Lemma filed_source glob (src : string * params) min_dp name cls reqs files : same_name (fst src) name -> lower name = name -> In (name, (cls, reqs)) requirements ->
  dict_ok (snd src) -> lists_files glob (snd src) files -> (forall r, In r reqs -> r = "files" \/ (~ In r filed /\ sget (snd src) r <> None)) ->
  exists p1, get_dataloader glob (fst src) (snd src) min_dp = Ok (cls, p1) /\ sget p1 "files" = Some (JArr (map JStr files)) /\ sget p1 "min_dp" = Some (JInt min_dp) /\
    forall k, ~ In k filed -> sget p1 k = sget (snd src) k.
Proof.
  intros Sn Ln Rq D Lf Hr. destruct src as [nm p]. cbn [fst snd] in *.
  assert (T : exists q, translate_file_input glob p = Ok q /\ sget q "files" = Some (JArr (map JStr files)) /\ forall k, ~ In k ["file"; "folder"; "files"] -> sget q k = sget p k).
  { assert (T : exists q, translate_file_input glob p = Ok q).
    { unfold lists_files in Lf. unfold translate_file_input. destruct (sget p "file"); [eauto|]. destruct (sget p "folder"); [|eauto]. destruct Lf as (s & dir & -> & _). eauto. }
    destruct T as (q & T). exists q. split; [exact T|]. destruct (translate_spec glob p q D T) as (U & _ & F). split; [|exact U].
    unfold lists_files in Lf. destruct (sget p "file") as [v|].
    - destruct Lf as (g & -> & ->). apply F.
    - destruct (sget p "folder") as [v|].
      + destruct Lf as (s & dir & -> & -> & J). destruct F as (s' & [= <-] & F & _). rewrite (join_slash_spec s dir J) in F. exact F.
      + subst q. exact Lf. }
  destruct T as (q & T & Tf & Tu).
  destruct (factory_spec glob nm p min_dp q T) as (F & _). destruct (F cls reqs) as (p1 & E & N1 & N2 & O).
  { rewrite (lower_same_name _ _ Sn), Ln. exact Rq. }
  { intros r I. destruct (Hr r I) as [->|[N X]]; [rewrite Tf; discriminate|]. rewrite Tu; [exact X|]. clear - N. intros Y. apply N. cbn in *. tauto. }
  exists p1. split; [exact E|]. split; [rewrite O by discriminate; exact Tf|]. split; [exact N2|].
  intros k K. cbn in K. rewrite O by (intros ->; tauto). apply Tu. cbn. tauto.
Qed.
(** What a class reads for a reprojected source. *)
Record reads_moved (p' : params) (files : list string) (s out x_col y_col : string) (col : string) (f : feed) : Prop := {
  rm_files : attr_files p' = Ok files;
  rm_name : exists o, attr_name p' = Ok o /\ match o with None => f_name f = col | Some n => n = f_name f /\ ~ In n ["lat"; "long"; "time"] end;
  rm_agg : attr_text p' "aggregate_type" = Ok (f_agg f);
  rm_agg' : sget p' "aggregate_type" = Some (JStr (f_agg f));
  rm_min : attr_int p' "min_dp" = Ok (f_min f);
  rm_in : attr_text p' "in_proj" = Ok s;
  rm_out : attr_text p' "out_proj" = Ok out;
  rm_x : attr_text p' "x_col" = Ok x_col;
  rm_y : attr_text p' "y_col" = Ok y_col;
  rm_fast : attr p' "fast_reprojection" = Ok (JBool false);
  rm_factors : attr_factors p' = Ok (1, 1) }.
Lemma text_read p k s : sget p k = Some (JStr s) -> attr_text p k = Ok s.
Proof. intros E. unfold attr_text, attr. rewrite E. reflexivity. Qed.
Lemma moved_reads (p p1 p' : params) cls files min_dp s out x_col y_col col f :
  sget p1 "files" = Some (JArr (map JStr files)) -> sget p1 "min_dp" = Some (JInt min_dp) -> (forall k, ~ In k filed -> sget p1 k = sget p k) ->
  (forall k, ~ In k ["in_proj"; "x_col"; "y_col"] -> sget p' k = sget (base_defaults cls p1) k) ->
  sget p' "in_proj" = Some (JStr s) -> sget p' "x_col" = Some (JStr x_col) -> sget p' "y_col" = Some (JStr y_col) ->
  text_or p "out_proj" "EPSG:4326" out -> settled_moved p min_dp col f -> reads_moved p' files s out x_col y_col col f.
Proof.
  intros Ef Em G V Ei Ex Ey To [D Na Ag Kn Mi Fa Fs Co Fi].
  assert (B : forall k, ~ In k filed -> ~ In k ["in_proj"; "x_col"; "y_col"] -> sget p' k = match sget p k with Some v => Some v | None => sget (base_list cls) k end).
  { intros k K1 K2. rewrite (V k K2), sget_base, (G k K1). reflexivity. }
  assert (TX : forall k d t, ~ In k filed -> ~ In k ["in_proj"; "x_col"; "y_col"] -> text_or p k d t -> sget (base_list cls) k = Some (JStr d) -> sget p' k = Some (JStr t)).
  { intros k d t K1 K2 X Y. rewrite (B k K1 K2). unfold text_or in X. destruct (sget p k); [subst; reflexivity|]. rewrite Y, X. reflexivity. }
  assert (EA : sget p' "aggregate_type" = Some (JStr (f_agg f))) by (eapply TX; [| |exact Ag|reflexivity]; cbn; intuition discriminate).
  constructor; try (apply text_read; assumption); try assumption.
  - unfold attr_files, attr. rewrite V by (cbn; intuition discriminate). rewrite sget_base, Ef. cbn [bind]. apply mapM_strings.
  - unfold attr_name, attr. rewrite B by (cbn; intuition discriminate). unfold names in Na. destruct (sget p "data_name") as [[]|]; cbn [sget String.eqb Ascii.eqb Bool.eqb bind base_list];
      try (destruct Na as [Na _]; discriminate); eexists; (split; [reflexivity|]); cbn beta iota; try assumption.
    destruct Na as [[= ->] X]. split; [reflexivity|exact X].
  - unfold attr_int, attr. rewrite V by (cbn; intuition discriminate). rewrite sget_base, Em, Mi. reflexivity.
  - apply text_read. eapply TX; [| |exact To|reflexivity]; cbn; intuition discriminate.
  - unfold attr. rewrite B by (cbn; intuition discriminate). destruct Fs as [->| ->]; reflexivity.
  - unfold attr_factors, attr. rewrite B by (cbn; intuition discriminate). destruct Fa as [->| ->]; reflexivity.
Qed.

(** ** Datasets on a projected grid *)
Lemma named_table (o : option string) (t : dframe) col n : data_names t = [col] ->
  match o with None => n = col | Some m => m = n /\ ~ In m ["lat"; "long"; "time"] end ->
  exists nt, name_source_df o t = Ok nt /\ fst nt = n /\ table_points (snd nt) = table_points t.
Proof.
  intros Dn Rn'. destruct (name_points o t col Dn) as (nt & En & Pn). { intros m ->. apply Rn'. }
  exists nt. split; [exact En|]. split; [|exact Pn]. unfold name_source_df, set_name_df, get_name_df in En. rewrite Dn in En. cbn [only_name bind] in En.
  destruct o as [m|]; injection En as <-; [apply Rn'|symmetry; exact Rn'].
Qed.
Lemma gridded_made sq proj k b p' files s out f ds : plain_region b -> reads_moved p' files s out "x" "y" "SIC" f -> s <> out -> f_xr f = false ->
  (forall p, In p (xr_points ds) -> List.length (p_vals p) = 1%nat) ->
  f_data f = map (move (proj s out)) (filter complete (xr_points ds)) -> (forall p, In p (f_data f) -> (-180 <= p_long p <= 180)%Q) ->
  exists d', construct_gridded sq proj k p' b (mkGridded "x" "y" ["SIC"] ds) = Ok (feed_loader sq k f, d') /\
    forall a pts, inside_region b a -> (selected (belongs a) d' pts <-> selected (belongs a) (f_data f) pts).
Proof.
  intros R [Rf (o & Rn & Rn') Ra Ra' Rm Ri Ro Rx Ry Rs Rfa] Ne X Lv Dt Lo.
  destruct (grid_rows "x" "y" (proj s out) (mkGridded "x" "y" ["SIC"] ds)) as (t & Et & Pt & Dn); try reflexivity.
  { repeat split; try discriminate; [repeat constructor; intros []|]. intros v [<-|[]] K. cbn in K. intuition discriminate. }
  { exact Lv. }
  cbn [n_ds n_vars] in Pt, Dn. rewrite <- Dt in Pt.
  destruct (named_table o t "SIC" (f_name f) Dn Rn') as (nt & En & Fn & Pn).
  destruct (construct_df_ok b (f_data f) R) as (d' & Ec & H).
  { intros p I _. apply Lo, I. }
  exists d'. split.
  - unfold construct_gridded. rewrite Rfa. cbn [bind]. rewrite Ra. cbn [bind]. rewrite Rm. cbn [bind].
    change (downsample_gridded (1, 1) (f_agg f) (mkGridded "x" "y" ["SIC"] ds)) with (@Ok gridded (mkGridded "x" "y" ["SIC"] ds)). cbn [bind].
    rewrite Ri. cbn [bind]. rewrite Ro. cbn [bind]. rewrite Rn. cbn [bind]. destruct (String.eqb_spec s out) as [E|_]; [contradiction|].
    rewrite Rs. cbn [bind py_true]. rewrite Rx. cbn [bind]. rewrite Ry. cbn [bind]. rewrite Et. cbn [bind]. rewrite En. cbn [bind]. rewrite Pn, Pt, Ec. cbn [bind]. rewrite Fn.
    unfold feed_loader. rewrite X. reflexivity.
  - intros a pts I. destruct H as [[_ S]|[_ ->]]; [|reflexivity]. symmetry. apply (selected_within (belongs b) (belongs a) _ _ (fun p => inside_belongs b a p I) S).
Qed.
Lemma filter_flat {A B} (f : B -> bool) (g : A -> list B) l : filter f (flat_map g l) = flat_map (fun x => filter f (g x)) l.
Proof. induction l as [|x l IH]; [reflexivity|]. cbn. rewrite filter_app, IH. reflexivity. Qed.
Lemma map_flat {A B C} (f : B -> C) (g : A -> list B) l : map f (flat_map g l) = flat_map (fun x => map f (g x)) l.
Proof. induction l as [|x l IH]; [reflexivity|]. cbn. rewrite map_app, IH. reflexivity. Qed.
Lemma flat_ext {A B} (f g : A -> list B) l : (forall x, In x l -> f x = g x) -> flat_map f l = flat_map g l.
Proof. induction l as [|x l IH]; intros H; [reflexivity|]. cbn. rewrite H by (left; reflexivity). f_equal. apply IH. intros; apply H; right; assumption. Qed.
Lemma stacked {B C} (F : Z -> B -> C) dflt (fs : list (Z * B)) :
  map (fun t => F (fst t) (snd (nth (snd t) fs dflt))) (combine (map fst fs) (seq 0 (List.length fs))) = map (fun o => F (fst o) (snd o)) fs.
Proof.
  enough (H : forall l pre, map (fun t => F (fst t) (snd (nth (snd t) (pre ++ l)%list dflt))) (combine (map fst l) (seq (List.length pre) (List.length l))) = map (fun o => F (fst o) (snd o)) l) by exact (H fs []).
  induction l as [|o l IH]; intros pre; [reflexivity|]. cbn [map List.length seq combine fst snd]. f_equal.
  - rewrite app_nth2, Nat.sub_diag by lia. reflexivity.
  - specialize (IH (pre ++ [o])%list). rewrite <- app_assoc, app_length, Nat.add_comm in IH. exact IH.
Qed.
Lemma placed_alone proj x y day v : map (move proj) (filter complete [mkP y x day [v]]) = placed proj x y day v.
Proof. destruct v; reflexivity. Qed.
Lemma amsr_over proj days ys xs :
  map (move proj) (filter complete (xr_points (amsr_grid days ys xs))) =
  over_grid ys xs (fun x y => flat_map (fun o => placed proj (fst x) (fst y) (Some (fst o)) (snd o (snd y) (snd x))) days).
Proof.
  unfold xr_points, over_grid, amsr_grid. cbn [x_lat x_long x_time x_val]. rewrite filter_flat, map_flat. apply flat_ext. intros y _. rewrite filter_flat, map_flat. apply flat_ext. intros x _.
  rewrite (stacked (fun t v => mkP (fst y) (fst x) (Some t) [v (snd y) (snd x)]) (0, fun _ _ => None) days).
  induction days as [|o days IH]; [reflexivity|]. cbn [map flat_map]. rewrite <- IH, <- placed_alone. cbn [filter map]. destruct (complete _); reflexivity.
Qed.
Lemma ice_over proj ds : x_time ds = None -> (forall y x, In y (x_lat ds) -> In x (x_long ds) -> List.length (x_val ds (snd y) (snd x) 0%nat) = 1%nat) ->
  map (move proj) (filter complete (xr_points (percent_grid ds))) =
  over_grid (x_lat ds) (x_long ds) (fun x y => placed proj (fst x) (fst y) None (option_map (fun v => v * 100)%Q (hd None (x_val ds (snd y) (snd x) 0%nat)))).
Proof.
  intros T L. unfold xr_points, over_grid, percent_grid. cbn [x_lat x_long x_time x_val]. rewrite T, filter_flat, map_flat. apply flat_ext. intros y Iy. rewrite filter_flat, map_flat. apply flat_ext. intros x Ix.
  specialize (L y x Iy Ix). destruct (x_val ds (snd y) (snd x) 0%nat) as [|v [|? ?]]; try discriminate. cbn [percentage map hd]. apply placed_alone.
Qed.

(** ** AMSR *)
Lemma same_axis_refl l : same_axis l l = true.
Proof.
  unfold same_axis. rewrite Nat.eqb_refl. cbn [andb]. induction l as [|[q n] l IH]; [reflexivity|]. cbn [combine forallb fst snd]. rewrite IH, Nat.eqb_refl.
  destruct (qeqb_spec q q) as [_|N]; [reflexivity|]. exfalso. apply N. reflexivity.
Qed.
Lemma supplied_moved glob construct sq b min_dp k (src : string * params) f cls p1 p' d' col : settled_moved (snd src) min_dp col f ->
  get_dataloader glob (fst src) (snd src) min_dp = Ok (cls, p1) -> add_default_params cls p1 = Ok p' -> construct k cls p' b = Ok (feed_loader sq k f, d') ->
  sget p' "aggregate_type" = Some (JStr (f_agg f)) -> ~ In cls table_classes ->
  (forall a pts, inside_region b a -> (selected (belongs a) d' pts <-> selected (belongs a) (f_data f) pts)) ->
  exists f', supplies glob construct sq b min_dp k src f' /\ agree b f' f.
Proof.
  intros [D Na Ag Kn Mi Fa Fs Co Fi] E1 E2 E3 E4 E5 A. exists (mkFeed (f_name f) (f_xr f) (f_agg f) (f_min f) (f_conds f) (f_fill f) d'). split.
  - split; [|split; [exact Kn|split; [exact Mi|split; [exact Co|exact Fi]]]]. exists cls, p1, p'. split; [exact E1|]. split; [exact E2|]. split; [exact E3|]. split; [exact E4|exact E5].
  - repeat split; auto; intros; cbn [f_data] in *; apply A; assumption.
Qed.
Lemma amsr_supplied glob sq proj open_amsr construct b min_dp k src f : plain_region b ->
  (forall p, construct k "AMSRDataLoader" p b = construct_amsr sq proj open_amsr k p b) -> amsr_feed glob proj open_amsr b min_dp src f ->
  exists f', supplies glob construct sq b min_dp k src f' /\ agree b f' f.
Proof.
  intros R Hc (files & kept & s & out & first & last & ys & xs & days & Sn & St & Lf & (h & Eh & Hh) & To & Ne & (C0 & C1 & Tr) & Nm & Nk & Pk & Fd & X & Dt & Lo).
  destruct (filed_source glob src min_dp "amsr" "AMSRDataLoader" ["files"; "hemisphere"] files Sn eq_refl) as (p1 & E1 & Ef & Em & G).
  { cbn. tauto. } { apply St. } { exact Lf. } { intros r [<-|[<-|[]]]; [left; reflexivity|right]. split; [cbn; intuition discriminate|congruence]. }
  assert (P : exists p', add_default_params "AMSRDataLoader" p1 = Ok p' /\ (forall k, ~ In k ["in_proj"; "x_col"; "y_col"] -> sget p' k = sget (base_defaults "AMSRDataLoader" p1) k) /\
    sget p' "in_proj" = Some (JStr s) /\ sget p' "x_col" = Some (JStr "x") /\ sget p' "y_col" = Some (JStr "y")).
  { unfold add_default_params. cbn [String.eqb Ascii.eqb Bool.eqb existsb orb]. unfold amsr_defaults. cbv zeta.
    rewrite sget_base, G, Eh by (cbn; intuition discriminate).
    assert (Y : forall t, t = s -> exists p', Ok (sset (sset (sset (base_defaults "AMSRDataLoader" p1) "in_proj" (JStr t)) "x_col" (JStr "x")) "y_col" (JStr "y")) = Ok p' /\
      (forall k, ~ In k ["in_proj"; "x_col"; "y_col"] -> sget p' k = sget (base_defaults "AMSRDataLoader" p1) k) /\
      sget p' "in_proj" = Some (JStr s) /\ sget p' "x_col" = Some (JStr "x") /\ sget p' "y_col" = Some (JStr "y")).
    { intros t ->. eexists. split; [reflexivity|]. split; [|split; [|split]].
      - intros j K. cbn [In] in K. rewrite !ParamProofs.sget_sset. destruct (String.eqb_spec j "y_col"); [subst; tauto|]. destruct (String.eqb_spec j "x_col"); [subst; tauto|]. destruct (String.eqb_spec j "in_proj"); [subst; tauto|reflexivity].
      - rewrite !ParamProofs.sget_sset. reflexivity.
      - rewrite !ParamProofs.sget_sset. reflexivity.
      - rewrite !ParamProofs.sget_sset. reflexivity. }
    destruct Hh as [(Sh & ->)|(Sh & ->)]; rewrite (lower_same_name _ _ Sh); cbn [lower String.eqb Ascii.eqb Bool.eqb]; apply Y; reflexivity. }
  destruct P as (p' & E2 & V & Vi & Vx & Vy).
  assert (Rd := moved_reads (snd src) p1 p' "AMSRDataLoader" files min_dp s out "x" "y" "SIC" f Ef Em G V Vi Vx Vy To St).
  assert (Fs : amsr_files (day_number first) (day_number last) files = Ok kept).
  { pose proof (C67_amsr first last files kept C0 C1 Nm Pk) as Q. destruct first as [[? ?] ?], last as [[? ?] ?]. cbn [day_number ord] in *. rewrite Q. destruct kept; [contradiction|reflexivity]. }
  assert (Od : forall date, day_number date = ord date) by (intros [[? ?] ?]; reflexivity).
  assert (Op : mapM (fun f => day <- amsr_date f ;; g <- open_amsr f ;; Ok (day, g)) kept = Ok (map (fun o => (fst o, (ys, xs, snd o))) days)).
  { clear - Fd Od. induction Fd as [|g o kept days (date & N & A & E & Eo) Fd IH]; [reflexivity|]. cbn [mapM map]. rewrite (amsr_date_ok g date N A). cbn [bind]. rewrite Eo. cbn [bind].
    rewrite IH. cbn [bind]. rewrite E. destruct date as [[? ?] ?]. reflexivity. }
  assert (In1 : forall o, In o days -> day_number first <= fst o <= day_number last).
  { assert (Ip : forall g, In g kept -> exists date, name_amsr g date /\ a_date date /\ date_le first date /\ date_le date last) by (intros g I; apply (picked_in _ _ _ Pk) in I; apply I).
    clear - Fd Od Ip C0 C1. induction Fd as [|g o kept days (date & N & A & E & Eo) Fd IH]; intros o' []; [subst o'|apply IH; [intros; apply Ip; right|]; assumption].
    destruct (Ip g (or_introl eq_refl)) as (date' & N' & A' & L1 & L2). rewrite E.
    assert (Y : ord date = ord date') by (pose proof (amsr_date_ok g date N A) as Y; rewrite (amsr_date_ok g date' N' A') in Y; congruence).
    change (day_number date) with (ord date). change (day_number first) with (ord first). change (day_number last) with (ord last). rewrite Y. apply ord_le in L1; [|exact C0|apply A']. apply ord_le in L2; [|apply A'|exact C1]. lia. }
  destruct (gridded_made sq proj k b p' files s out f (amsr_grid days ys xs) R Rd Ne X) as (d' & Ec & Ad).
  { intros p Ip. unfold xr_points, amsr_grid in Ip. cbn [x_lat x_long x_time x_val] in Ip. apply in_flat_map in Ip. destruct Ip as (la & _ & Ip).
    apply in_flat_map in Ip. destruct Ip as (lo & _ & Ip). apply in_map_iff in Ip. destruct Ip as (t & <- & _). reflexivity. }
  { rewrite amsr_over. exact Dt. } { exact Lo. }
  eapply supplied_moved; [exact St|exact E1|exact E2| |apply Rd|cbn; intuition discriminate|exact Ad].
  rewrite Hc. unfold construct_amsr. rewrite (rm_files _ _ _ _ _ _ _ _ Rd). cbn [bind]. rewrite Tr, Fs. cbn [bind]. rewrite Op. cbn [bind].
  destruct days as [|o1 days]; [inversion Fd; subst; contradiction|]. set (ds := o1 :: days) in *. cbn [map] in *. change (map (fun o => (fst o, (ys, xs, snd o))) ds) with ((fst o1, (ys, xs, snd o1)) :: map (fun o => (fst o, (ys, xs, snd o))) days).
  cbv iota beta. cbn [fst snd].
  assert (Sg : forallb (fun o : Z * amsr_ds => same_grid (ys, xs, snd o1) (snd o)) ((fst o1, (ys, xs, snd o1)) :: map (fun o => (fst o, (ys, xs, snd o))) days) = true).
  { apply forallb_forall. intros o I. change (In o (map (fun o => (fst o, (ys, xs, snd o))) ds)) in I. apply in_map_iff in I as (o' & <- & _). unfold same_grid. cbn [fst snd]. rewrite !same_axis_refl. reflexivity. }
  rewrite Sg.
  assert (Mp : map (fun o : Z * amsr_ds => (fst o, snd (snd o))) ((fst o1, (ys, xs, snd o1)) :: map (fun o => (fst o, (ys, xs, snd o))) days) = ds).
  { change ((fst o1, (ys, xs, snd o1)) :: map (fun o => (fst o, (ys, xs, snd o))) days) with (map (fun o : Z * (nat -> nat -> option Q) => (fst o, (ys, xs, snd o))) ds). rewrite map_map. cbn [fst snd].
    rewrite <- (map_id ds) at 2. apply map_ext. intros []; reflexivity. }
  match goal with |- context [import_amsr _ _ _ _ ?l] => replace l with ds by (symmetry; exact Mp) end. unfold import_amsr.
  assert (Fl : filter (fun f => (day_number first <=? fst f) && (fst f <=? day_number last)) ds = ds).
  { clear - In1. induction ds as [|o l IH]; [reflexivity|]. cbn [filter]. pose proof (In1 o (or_introl eq_refl)). destruct (Z.leb_spec (day_number first) (fst o)); [|lia]. destruct (Z.leb_spec (fst o) (day_number last)); [|lia].
    cbn [andb]. f_equal. apply IH. intros; apply In1; right; assumption. }
  rewrite Fl. unfold ds at 1. cbv iota. cbn [bind]. exact Ec.
Qed.

(** ** Visual_Ice *)
Lemma visual_ice_supplied glob sq proj open_ice construct b min_dp k src f : plain_region b ->
  (forall p, construct k "VisualIcedDataLoader" p b = construct_visual_iced sq proj open_ice k p b) -> visual_ice_feed glob proj open_ice b min_dp src f ->
  exists f', supplies glob construct sq b min_dp k src f' /\ agree b f' f.
Proof.
  intros R Hc (file & s & out & ds & Sn & St & Lf & (stem & Hf) & Op & Ti & To & Ne & Xc & Yc & Nt & Lv & X & Dt & Lo).
  destruct (filed_source glob src min_dp "visual_iced" "VisualIcedDataLoader" ["files"] [file] Sn eq_refl) as (p1 & E1 & Ef & Em & G).
  { cbn. tauto. } { apply St. } { exact Lf. } { intros r [<-|[]]; left; reflexivity. }
  set (p' := base_defaults "VisualIcedDataLoader" p1).
  assert (Vx : sget p' "x_col" = Some (JStr "x")) by (unfold p'; rewrite sget_base, G, Xc by (cbn; intuition discriminate); reflexivity).
  assert (Vy : sget p' "y_col" = Some (JStr "y")) by (unfold p'; rewrite sget_base, G, Yc by (cbn; intuition discriminate); reflexivity).
  assert (Vi : sget p' "in_proj" = Some (JStr s)).
  { unfold p'. rewrite sget_base, G by (cbn; intuition discriminate). unfold text_or in Ti. destruct (sget (snd src) "in_proj"); [subst; reflexivity|]. rewrite Ti. reflexivity. }
  assert (Rd := moved_reads (snd src) p1 p' "VisualIcedDataLoader" [file] min_dp s out "x" "y" "SIC" f Ef Em G (fun k _ => eq_refl) Vi Vx Vy To St).
  destruct (gridded_made sq proj k b p' [file] s out f (percent_grid ds) R Rd Ne X) as (d' & Ec & Ad).
  { intros p I. rewrite percent_points in I. apply in_map_iff in I as (q & <- & I). cbn. unfold percentage. rewrite map_length. unfold xr_points in I. rewrite Nt in I.
    apply in_flat_map in I as (y & Iy & I). apply in_flat_map in I as (x & Ix & [<-|[]]). apply Lv; assumption. }
  { rewrite ice_over by assumption. exact Dt. } { exact Lo. }
  eapply (supplied_moved glob construct sq b min_dp k src f "VisualIcedDataLoader" p1 p'); [exact St|exact E1|reflexivity| |apply Rd|cbn; intuition discriminate|exact Ad].
  rewrite Hc. unfold construct_visual_iced. rewrite (rm_files _ _ _ _ _ _ _ _ Rd). cbn [bind]. rewrite Op. cbn [bind]. unfold import_visual_iced.
  assert (En : (let e := last (split "." file) "" in String.eqb e "tiff" || String.eqb e "nc") = true).
  { cbv zeta. destruct Hf as [->| ->].
    - change (stem ++ ".nc") with (stem ++ String "." "nc"). rewrite last_ending; [reflexivity|]. intros K. cbn in K. intuition discriminate.
    - change (stem ++ ".tiff") with (stem ++ String "." "tiff"). rewrite last_ending; [reflexivity|]. intros K. cbn in K. intuition discriminate. }
  cbv zeta in En. cbv zeta. rewrite En. cbn [bind]. exact Ec.
Qed.

(** ** IceNet *)
Lemma icenet_table d : (forall p, In p d -> (exists v, p_vals p = [v]) /\ exists z, p_time p = Some z) -> fields true "SIC" (table_of "long" "lat" true ["SIC"] d) d.
Proof.
  intros H. split; [|split; [|split]].
  - cbn. repeat constructor; cbn; intuition discriminate.
  - intros c. cbn. intuition (subst; auto).
  - intros c I. cbn in I. assert (Hc : c = "time" \/ c = "lat" \/ c = "long" \/ c = "SIC") by intuition. clear I.
    destruct Hc as [->|[->|[->| ->]]]; cbn [table_of app combine seq List.length map fst snd sget String.eqb Ascii.eqb Bool.eqb]; f_equal; apply map_ext; intros p; reflexivity.
  - intros p I. apply H, I.
Qed.
Lemma icenet_chosen first files made file : calendar_date first -> (forall f, In f files -> exists date, name_icenet f date /\ a_date date) ->
  In file files -> name_icenet file made -> a_date made -> date_lt made first ->
  (forall f date, In f files -> name_icenet f date -> a_date date -> date_lt date first -> f = file \/ date_lt date made) ->
  icenet_file (day_number first) files = Ok (day_number made, file).
Proof.
  intros C0 H I N A L M. change (day_number first) with (ord first). change (day_number made) with (ord made).
  pose proof (C67_icenet_partial first files C0 H) as K. destruct (icenet_file (ord first) files) as [[n g]|e].
  - destruct K as (date & -> & Ig & Ng & Ag & Lg & Mg). destruct (M g date Ig Ng Ag Lg) as [->|[L1 L2]].
    + pose proof (icenet_date_ok file date Ng Ag) as E. rewrite (icenet_date_ok file made N A) in E. congruence.
    + exfalso. specialize (Mg file made I N A L). apply ord_le in L1; [|apply Ag|apply A]. apply ord_le in Mg; [|apply A|apply Ag].
      apply L2. assert (E : ord date = ord made) by lia. destruct date as [[y m] d], made as [[y' m'] d']. cbn [ord] in E. destruct Ag as [Ag _], A as [A _]. apply calendar_valid in Ag, A. exact (ord_inj y m d y' m' d' Ag A E).
  - destruct K as (_ & K). exfalso. exact (K file made I N A L).
Qed.
Lemma icenet_supplied glob sq proj open_icenet construct b min_dp k src f : plain_region b ->
  (forall p, construct k "IceNetDataLoader" p b = construct_icenet sq proj open_icenet k p b) -> icenet_feed glob open_icenet b min_dp src f ->
  exists f', supplies glob construct sq b min_dp k src f' /\ agree b f' f.
Proof.
  intros R Hc (files & first & last & file & made & ds & run & Sn & St & Lf & (C0 & C1 & Tr) & Le & Nm & If & Nf & Af & Lt & Mx & Op & Lb & A1 & A2 & X & Dt).
  destruct (made_ready glob src min_dp "icenet" "IceNetDataLoader" files "SIC" f Sn eq_refl) as (p' & (p1 & E1 & E2) & Rd); auto.
  { cbn. tauto. } { intros p. reflexivity. }
  assert (Ch := icenet_chosen first files made file C0 Nm If Nf Af Lt Mx).
  destruct (leads_ok (day_number first) (day_number last) (day_number made) (i_runs ds) (i_leads ds) run Le Lb A1 A2) as (ahead & El).
  destruct (icenet_import (fun _ => ds) b (day_number first) (day_number last) files (day_number made) file Ch run ahead El Le) as (_ & Ei).
  set (d := df_trim b (predictions ds run (day_number first) (Z.to_nat (day_number last - day_number first)))) in *.
  assert (S : selected (belongs b) (f_data f) d) by (rewrite Dt; apply TrimProofs.df_trim_selects; apply R).
  assert (Ft : fields true "SIC" (table_of "long" "lat" true ["SIC"] d) d).
  { apply icenet_table. intros p I. apply (TrimProofs.selected_In _ _ _ p S) in I as [I _]. rewrite Dt in I. unfold predictions in I. apply in_flat_map in I as (j & _ & I). apply in_map_iff in I as (c & <- & _). cbn. split; eauto. }
  assert (Nc : ~ In "SIC" ["lat"; "long"; "time"]) by (cbn; intuition discriminate).
  assert (P := fields_points _ _ _ _ Nc Ft). assert (Dn := fields_names _ _ _ _ Nc Ft).
  destruct Rd as [Rf (o & Rn & Rn') Ra Ra' Rm (s & Ri & Ro) (x & y & Rx & Ry) Rfa Ru].
  destruct (named_table o _ "SIC" (f_name f) Dn Rn') as (nt & En & Fn & Pn).
  exists (mkFeed (f_name f) (f_xr f) (f_agg f) (f_min f) (f_conds f) (f_fill f) d). destruct St. split.
  - split; [|split; [exact st_known|split; [exact st_min|split; [exact st_conds|exact st_fill]]]].
    exists "IceNetDataLoader", p1, p'. split; [exact E1|]. split; [exact E2|]. split; [|split; [exact Ra'|cbn; intuition discriminate]].
    rewrite Hc. unfold construct_icenet. rewrite Rf. cbn [bind]. rewrite Tr, Ch. cbn [bind snd]. rewrite Op. cbn [bind]. rewrite Ei. cbn [bind]. rewrite Ri. cbn [bind]. rewrite Ro. cbn [bind].
    rewrite Rx. cbn [bind]. rewrite Ry. cbn [bind]. unfold reproject. rewrite String.eqb_refl. cbn [bind]. rewrite Rn. cbn [bind]. rewrite En. cbn [bind]. rewrite Pn, P.
    rewrite (construct_df_same b d R) by (intros p I; apply (TrimProofs.selected_In _ _ _ p S) in I; apply I). cbn [bind]. rewrite Ra. cbn [bind]. rewrite Rm. cbn [bind]. rewrite Fn.
    unfold feed_loader. cbn [f_xr f_name f_agg f_min f_data]. rewrite X. reflexivity.
  - repeat split; auto; intros; cbn [f_data] in *; apply (selected_within (belongs b) (belongs a) _ _ (fun p => inside_belongs b a p H) S); assumption.
Qed.

(** ** Everything else as before *)
Lemma offers_ice o edge sq cos sin noise proj open_amsr open_icenet open_ice glob dsin dcos read_csv open_nc read_table read_shapes b min_dp k src s :
  offers o edge sq glob (construct_every sq cos sin proj noise o edge dsin dcos read_csv open_nc read_table read_shapes) b min_dp k src s ->
  offers o edge sq glob (construct_ice sq proj open_amsr open_icenet open_ice cos sin noise o edge dsin dcos read_csv open_nc read_table read_shapes) b min_dp k src s.
Proof.
  assert (X : forall cls p r, construct_every sq cos sin proj noise o edge dsin dcos read_csv open_nc read_table read_shapes k cls p b = Ok r ->
    construct_ice sq proj open_amsr open_icenet open_ice cos sin noise o edge dsin dcos read_csv open_nc read_table read_shapes k cls p b = Ok r).
  { intros cls p r E. unfold construct_ice. destruct (String.eqb_spec cls "AMSRDataLoader") as [->|N1]; [|destruct (String.eqb_spec cls "IceNetDataLoader") as [->|N2]; [|destruct (String.eqb_spec cls "VisualIcedDataLoader") as [->|N3]; [|exact E]]];
      exfalso; unfold construct_every, construct_all, construct_any, construct_source, construct_grid, import_grid in E; cbn [String.eqb Ascii.eqb Bool.eqb existsb vector_classes era5_waves table_classes orb] in E;
      (destruct (attr_files p); [|discriminate]); discriminate. }
  destruct s as [[f|v]|t]; cbn [offers provides]; intros ((cls & p & p' & S1 & S2 & S3 & S4) & R); (split; [|exact R]); exists cls, p, p'; (split; [exact S1|]); (split; [exact S2|]); (split; [apply X; exact S3|exact S4]).
Qed.

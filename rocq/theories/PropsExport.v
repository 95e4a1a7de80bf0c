(** Property theorem C77: exporting a mesh. *)
From Coq Require Import String.
From Verif Require Import Base Geo Cell Env PyStr Export ExportSpec QLib ExportProofs.
Open Scope Z_scope.

(** C77.  A mesh without texts among the exported values is exported: one feature per
    cell, in the order of the cells and numbered from 0, with the geometry and id of
    the cell and, apart from the id, exactly the names carried; each with a number or
    null, and, where flags are not mixed with anything else, the number that stands
    for the value in the cell. *)
Theorem C77_features_partial : forall layer cs, cs <> [] -> (forall c, In c cs -> plain c) ->
  (forall n c, carried layer cs n -> In c cs -> numeric (sget (x_data c) n)) ->
  exists fs, to_geojson layer cs = Ok fs /\ List.length fs = List.length cs /\
    forall k c, nth_error cs k = Some c -> exists f, nth_error fs k = Some f /\
      f_index f = k /\ f_geom f = to_polygon (x_bounds c) /\ sget (f_props f) "id" = Some (PId (x_id c)) /\
      NoDup (map fst (f_props f)) /\
      (forall n, In n (map fst (f_props f)) <-> n = "id"%string \/ carried layer cs n) /\
      (forall n, carried layer cs n -> exists v, sget (f_props f) n = Some (PVal v) /\
         (flags_agree cs n -> stands_for (sget (x_data c) n) v)).
Proof.
  intros layer cs Ne Pl Nu. destruct (geojson_ok layer cs Ne Pl Nu) as (fs & E & L & H). exists fs. split; auto. split; auto.
  intros k c Hk. destruct (H k c Hk) as (f & H1 & H2 & H3 & H4 & H5 & H6 & H7). exists f. repeat (split; [auto|]).
  intros n Cn. destruct (H7 n Cn) as (v & Ev & S1 & _). exists v. auto.
Qed.
Print Assumptions C77_features_partial.

(** A flag that is not set shows as null if every cell has the flag, and as 0 if one
    cell has none or something else under the name. *)
Theorem C77_flags : forall layer cs n k c fs, (forall c, In c cs -> plain c) ->
  (forall n c, carried layer cs n -> In c cs -> numeric (sget (x_data c) n)) ->
  carried layer cs n -> nth_error cs k = Some c -> sget (x_data c) n = Some (XBool false) -> to_geojson layer cs = Ok fs ->
  exists f v, nth_error fs k = Some f /\ sget (f_props f) n = Some (PVal v) /\
    ((forall c', In c' cs -> exists b, sget (x_data c') n = Some (XBool b)) -> v = None) /\
    ((exists c', In c' cs /\ forall b, sget (x_data c') n <> Some (XBool b)) -> v = Some 0%Q).
Proof.
  intros layer cs n k c fs Pl Nu Cn Hk Ev E. assert (Ne : cs <> []) by (intros ->; destruct k; discriminate).
  destruct (geojson_ok layer cs Ne Pl Nu) as (fs' & E' & _ & H). rewrite E in E'. injection E' as <-.
  destruct (H k c Hk) as (f & H1 & _ & _ & _ & _ & _ & H7). destruct (H7 n Cn) as (v & Gv & _ & S2). exists f, v. auto.
Qed.
Print Assumptions C77_flags.

(** One text among the exported values, such as the fill value "Nan" in a single
    cell, and the export fails. *)
Theorem C77_text : forall layer cs n, (forall c, In c cs -> plain c) -> carried layer cs n ->
  (exists c s, In c cs /\ sget (x_data c) n = Some (XText s)) -> to_geojson layer cs = Err TypeError.
Proof. exact geojson_text. Qed.
Print Assumptions C77_text.

Section SaveProps.
Context {P Out : Type} (to_tif : option P -> on_disk Out * res unit) (to_geo : option P -> res Out) (json : Out) (plot : P -> on_disk Out * res unit).
Notation save := (save to_tif to_geo json plot).

(** What [save] does depends on the letters of the format and not on their case; the
    four formats do what they say. *)
Theorem C77_save : forall format params,
  (forall format', upper format' = upper format -> save format' params = save format params) /\
  (upper format = "JSON"%string -> save format params = (Written json, Ok tt)) /\
  (upper format = "GEOJSON"%string -> forall o, to_geo params = Ok o -> save format params = (Written o, Ok tt)) /\
  (upper format = "TIF"%string -> save format params = to_tif params) /\
  (upper format = "PNG"%string -> forall p, params = Some p -> save format params = plot p).
Proof.
  intros format params. unfold Export.save, to_png. cbv zeta. split; [intros f' ->; auto|].
  split; [intros ->; reflexivity|]. split; [intros -> o Eo; cbn; rewrite Eo; reflexivity|]. split; [intros ->; reflexivity|].
  intros -> p ->. reflexivity.
Qed.

(** Any other format: nothing is written and nothing is raised. *)
Theorem C77_unknown_format : forall format params, ~ In (upper format) ["TIF"; "JSON"; "GEOJSON"; "PNG"]%string ->
  save format params = (Untouched, Ok tt).
Proof.
  intros format params N. unfold Export.save. cbv zeta. cbn in N.
  repeat (match goal with |- context [String.eqb ?a ?b] => destruct (String.eqb_spec a b) as [X|X]; [exfalso; rewrite X in N; tauto|clear X] end).
  reflexivity.
Qed.

(** Without parameters there is no PNG. *)
Theorem C77_png : forall format, upper format = "PNG"%string -> save format None = (Untouched, Err UnboundLocalError).
Proof. intros format E. unfold Export.save. cbv zeta. rewrite E. reflexivity. Qed.

(** A GeoJSON export that fails has emptied the file. *)
Theorem C77_emptied : forall format params e, upper format = "GEOJSON"%string -> to_geo params = Err e ->
  save format params = (Emptied, Err e).
Proof. intros format params e E G. unfold Export.save. cbv zeta. rewrite E. cbn. rewrite G. reflexivity. Qed.
End SaveProps.
Print Assumptions C77_save.
Print Assumptions C77_unknown_format.
Print Assumptions C77_png.
Print Assumptions C77_emptied.

(** The output used when none is named has an extension that fits the format. *)
Theorem C77_default_output : forall format, In (upper format) ["TIF"; "JSON"; "GEOJSON"; "PNG"]%string ->
  default_output format = match upper format with "TIF" => "mesh.tif" | "PNG" => "mesh.png" | "GEOJSON" => "mesh_geo.json" | _ => "mesh.json" end%string.
Proof. intros format. unfold default_output. cbv zeta. intros [<-|[<-|[<-|[<-|[]]]]]; reflexivity. Qed.
Print Assumptions C77_default_output.

(** Two cells of one degree with a number, a list, an infinite value and a flag;
    [mixed] has a flag in one cell only; [filled] has a fill value. *)
Definition cell (w : Q) (id : Z) (d : sdict xval) : xcell := mkXC (mkB (-60) (-59) w (w + 1) []) d id.
Definition two : list xcell :=
  [ cell 10 3 [("SIC", XNum (Fin (1#2))); ("uC", XList [Fin 1; Fin 2]); ("speed", XNum PInf); ("land", XBool false)]%string;
    cell 11 8 [("SIC", XNum NaN); ("uC", XList [Fin 4; NaN]); ("speed", XNum (Fin 26)); ("land", XBool true); ("depth", XNum (Fin 9))]%string ]%Q.
Definition mixed : list xcell := [ cell 10 3 [("land", XBool false)]%string; cell 11 8 [] ]%Q.
Definition filled : list xcell := [ cell 10 3 [("SIC", XNum (Fin (1#2)))]%string; cell 11 8 [("SIC", XText "Nan")]%string ]%Q.
Ltac plain_cells := cbn [In]; intros c Hc; repeat (destruct Hc as [<-|Hc]); try destruct Hc;
  (split; [cbn; repeat (constructor; [cbn; intuition discriminate|]); constructor
          |cbn [cell x_data map fst In own_names]; intros m Hm; repeat (destruct Hm as [<-|Hm]); try destruct Hm; cbn; intuition discriminate]).
Lemma two_plain : forall c, In c two -> plain c. Proof. plain_cells. Qed.
Lemma mixed_plain : forall c, In c mixed -> plain c. Proof. plain_cells. Qed.
Lemma filled_plain : forall c, In c filled -> plain c. Proof. plain_cells. Qed.
Lemma two_names n : carried None two n <-> In n ["SIC"; "uC"; "speed"; "land"; "depth"]%string.
Proof.
  split.
  - intros ((c & [<-|[<-|[]]] & Hn) & _); cbn in *; tauto.
  - intros H. split; auto. exists (nth 1 two (cell 0 0 [])). split; [right; left; auto|]. cbn in *. tauto.
Qed.

(** The full claim, that every mesh is exported with unset flags as null, that a PNG
    needs no parameters, that an unknown format is refused and that a failed export
    leaves the file alone, is false in each part. *)
Theorem C77_flags_refuted : exists cs f fs, (forall c, In c cs -> plain c) /\ to_geojson None cs = Ok (f :: fs) /\
  (exists c, hd_error cs = Some c /\ sget (x_data c) "land" = Some (XBool false)) /\ sget (f_props f) "land" = Some (PVal (Some 0%Q)).
Proof.
  exists mixed. do 2 eexists. split; [exact mixed_plain|]. split; [vm_compute; reflexivity|]. split; [eexists; split; reflexivity|reflexivity].
Qed.
Print Assumptions C77_flags_refuted.
Theorem C77_text_refuted : exists cs, (forall c, In c cs -> plain c) /\ to_geojson None cs = Err TypeError /\ to_geojson (Some "SIC"%string) cs = Err TypeError /\
  exists fs, to_geojson (Some "depth"%string) cs = Ok fs.
Proof. exists filled. split; [exact filled_plain|]. split; [reflexivity|]. split; [reflexivity|]. eexists. vm_compute. reflexivity. Qed.
Print Assumptions C77_text_refuted.
Theorem C77_save_refuted : forall (P Out : Type) (to_tif : option P -> on_disk Out * res unit) (to_geo : option P -> res Out) (json : Out) (plot : P -> on_disk Out * res unit),
  (exists format, forall params, save to_tif to_geo json plot format params = (Untouched, Ok tt)) /\
  (exists format, save to_tif to_geo json plot format None = (Untouched, Err UnboundLocalError)) /\
  (exists format, forall params, (exists e, to_geo params = Err e) -> fst (save to_tif to_geo json plot format params) = Emptied).
Proof.
  intros P Out to_tif to_geo json plot. split; [|split].
  - exists "tiff"%string. intros params. apply C77_unknown_format. cbn. intuition discriminate.
  - exists "png"%string. apply C77_png. reflexivity.
  - exists "geojson"%string. intros params (e & E). rewrite (C77_emptied _ _ _ _ _ _ e); auto.
Qed.
Print Assumptions C77_save_refuted.

(** A non-trivial case: the hypotheses hold of [two], and what is exported. *)
Example C77_case : two <> [] /\ (forall c, In c two -> plain c) /\
  (forall n c, carried None two n -> In c two -> numeric (sget (x_data c) n)) /\
  (forall n, carried None two n -> n <> "depth"%string -> flags_agree two n) /\ flags_agree two "depth" /\
  (exists f g, to_geojson None two = Ok [f; g] /\
     f_props f = [("SIC", PVal (Some (1#2))); ("uC", PVal (Some (3#2))); ("speed", PVal None); ("land", PVal None); ("id", PId 3); ("depth", PVal None)]%string%Q /\
     f_props g = [("SIC", PVal None); ("uC", PVal None); ("speed", PVal (Some 26)); ("land", PVal (Some 1)); ("id", PId 8); ("depth", PVal (Some 9))]%string%Q) /\
  (exists f g, to_geojson (Some "land"%string) two = Ok [f; g] /\ f_props f = [("land", PVal None); ("id", PId 3)]%string /\ f_index g = 1%nat).
Proof.
  split; [discriminate|]. split; [exact two_plain|]. split; [|split; [|split; [|split]]].
  - intros n c Hn Hc. apply two_names in Hn. cbn [In] in Hn, Hc.
    destruct Hc as [<-|[<-|[]]]; repeat (destruct Hn as [<-|Hn]; [cbn; exact I|]); destruct Hn.
  - intros n Hn Nd. apply two_names in Hn. cbn [In] in Hn. destruct Hn as [<-|[<-|[<-|[<-|[<-|[]]]]]]; try congruence.
    1-3: left; intros c [<-|[<-|[]]]; discriminate. right; intros c [<-|[<-|[]]]; cbn; eauto.
  - left; intros c [<-|[<-|[]]]; discriminate.
  - do 2 eexists. split; [vm_compute; reflexivity|]. split; reflexivity.
  - do 2 eexists. split; [vm_compute; reflexivity|]. split; reflexivity.
Qed.

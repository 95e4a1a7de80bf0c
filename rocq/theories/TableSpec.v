(** Specification of what a mesh generated from scalar sources, vector sources and look-up
    tables holds (C90). *)
From Verif Require Import Base Geo Graph Cell Loaders AddLoader VecLoader Builder Env Spec MeshSpec EnvSpec DataSpec PyStr Config ConfigSpec Params PipeSpec VecHomSpec MixSpec Lut LutFiles LutSources.
Open Scope string_scope.
Open Scope Z_scope.

Section Tables.
Variable o : planar.
(** Does the edge of the one meet the other? *)
Variable edge : geom o -> geom o -> bool.
Variable sqrt : Q -> Q.

(** A look-up table: its name, how it is aggregated, its conditions (split at boundaries;
    do not split elsewhere), how missing values are filled, its polygons and their values. *)
Record tfeed := mkTFeed { t_name : string; t_agg : string; t_conds : list (bool * bool); t_fill : fill; t_rows : list (geom o * lval) }.
Inductive origin := Point (s : source) | Table (t : tfeed).
Definition labels (s : origin) : list string := match s with Point s => names_of s | Table t => [t_name t] end.
Definition points (l : list origin) : list source := flat_map (fun s => match s with Point s => [s] | Table _ => [] end) l.
Definition labels_apart (l : list origin) : Prop :=
  (forall s n, In s l -> In n (labels s) -> no_comma n /\ ~ In n own_keys) /\
  (forall v, In (Point (Vector v)) l -> NoDup (v_names v) /\ (2 <= List.length (v_names v))%nat) /\
  (forall i j v t n, i <> j -> nth_error l i = Some (Point (Vector v)) -> nth_error l j = Some t -> In n (v_names v) -> ~ In n (labels t)).

(** ** Geometry *)
Definition meets (b : boundary) (g : geom o) : Prop := g_intersects o g (g_shape o (Rect b)) = true.
Definition within (a b : boundary) : Prop :=
  (long_min a < long_max a /\ long_min b < long_max b /\ lat_min a < lat_max a /\
   long_min b <= long_min a /\ long_max a <= long_max b /\ lat_min b <= lat_min a /\ lat_max a <= lat_max b)%Q.
(** What meets a rectangle meets every larger one. *)
Definition grows : Prop := forall a b g, within a b -> meets a g -> meets b g.
(** The polygons of [rows] that meet a rectangle in [b] cover some of it. *)
Definition weighty (b : boundary) (rows : list (geom o * lval)) : Prop :=
  forall a met, within a b -> selected (fun r => meets a (fst r)) rows met -> met <> [] ->
    ~ (g_covered o (map fst met) (g_shape o (Rect a)) == 0)%Q.

(** ** Values *)
Definition table_aggs : list string := ["COUNT"; "MIN"; "MAX"; "MEAN"; "STD"].
Definition worth (v : lval) : Q := match v with LQ q => q | LB t => if t then 1 else 0 | LNan => 0 end%Q.
Definition total (l : list Q) : Q := fold_right Qplus 0%Q l.
(** The summary of the values [vs]: of no values, or with a missing one, there is none but
    their number. *)
Definition summary (agg : string) (vs : list lval) (v : option Q) : Prop :=
  let xs := map worth vs in
  let n := inject_Z (Z.of_nat (List.length vs)) in
  if String.eqb agg "COUNT" then v = Some n
  else ((vs = [] \/ In LNan vs) /\ v = None) \/
       (vs <> [] /\ ~ In LNan vs /\ exists q, v = Some q /\
         ((agg = "MIN" /\ In q xs /\ forall x, In x xs -> q <= x)%Q \/
          (agg = "MAX" /\ In q xs /\ forall x, In x xs -> x <= q)%Q \/
          (agg = "MEAN" /\ q * n == total xs)%Q \/
          (agg = "STD" /\ exists m w, m * n == total xs /\ w * n == total (map (fun x => (x - m) * (x - m)) xs) /\ q = sqrt w)%Q)).
Definition table_own (t : tfeed) (b : boundary) (v : option Q) : Prop :=
  exists met, selected (fun r => meets b (fst r)) (t_rows t) met /\ summary (t_agg t) (map snd met) v.
Inductive table_filled (t : tfeed) : list boundary -> option Q -> Prop :=
| tf_own b l q : table_own t b (Some q) -> table_filled t (b :: l) (Some q)
| tf_number b l q : table_own t b None -> t_fill t = FillNum q -> table_filled t (b :: l) (Some q)
| tf_parent b l v : table_own t b None -> t_fill t = FillParent -> table_filled t l v -> table_filled t (b :: l) v
| tf_none : t_fill t = FillParent -> table_filled t [] None.
(** The sources of one value each, and the first known value among those of a name. *)
Definition called (n : string) (s : origin) : bool :=
  match s with Point (Scalar f) => String.eqb (f_name f) n | Point (Vector _) => false | Table t => String.eqb (t_name t) n end.
Definition single_filled (s : origin) (l : list boundary) (v : option Q) : Prop :=
  match s with Point (Scalar f) => filled sqrt f l v | Point (Vector _) => False | Table t => table_filled t l v end.
Definition stands (ss : list origin) (l : list boundary) (n : string) (j : option jval) : Prop :=
  (exists v i q, In (Point (Vector v)) ss /\ nth_error (v_names v) i = Some n /\ component_filled sqrt v i l q /\ j = Some (JNum q)) \/
  ((forall v, In (Point (Vector v)) ss -> ~ In n (v_names v)) /\
   exists vs, Forall2 (fun s v => single_filled s l v) (filter (called n) ss) vs /\
     j = match vs with [] => None | _ => Some (JNum (first_known vs)) end).

(** ** Splitting *)
Definition table_answer (c : bool * bool) (b : boundary) (met : list (geom o * lval)) (h : hom) : Prop :=
  let cut := exists r, In r met /\ edge (fst r) (g_shape o (Rect b)) = true in
  (met = [] /\ h = (if snd c then HOM else CLR)) \/
  (met <> [] /\ fst c = true /\ cut /\ h = HET) \/
  (met <> [] /\ ~ (fst c = true /\ cut) /\ h = CLR).
Definition origin_says (ss : list origin) (b : boundary) (h : hom) : Prop :=
  source_says (points ss) b h \/
  exists t c met, In (Table t) ss /\ In c (t_conds t) /\ selected (fun r => meets b (fst r)) (t_rows t) met /\ table_answer c b met h.
Definition should_split (ss : list origin) (b : boundary) : Prop :=
  origin_says ss b HET /\ ~ origin_says ss b HOM /\ ~ origin_says ss b MIN.

(** ** Configuration *)
Definition table_condition_says (name : string) (j : json) (c : bool * bool) : Prop :=
  exists d p, j = JObj d /\ sget d name = Some (JObj p) /\ sget p "boundary" = Some (JBool (fst c)) /\ sget p "split_lock" = Some (JBool (snd c)).
Definition table_conditions_say (p : params) (name : string) (cs : list (bool * bool)) : Prop :=
  match sget p "splitting_conditions" with
  | None => cs = []
  | Some j => exists l, j = JArr l /\ Forall2 (table_condition_says name) l cs
  end.
Definition tfeed_loader (k : nat) (t : tfeed) : loader := table_loader o edge sqrt (Z.of_nat k) (t_name t) (t_name t) (t_agg t) (t_rows t).
Definition offers (glob : string -> list string) (construct : nat -> string -> params -> boundary -> res (loader * data))
    (b : boundary) (min_dp : Z) (k : nat) (src : string * params) (s : origin) : Prop :=
  match s with
  | Point s => provides glob construct sqrt b min_dp k src s
  | Table t =>
      (exists cls p p', get_dataloader glob (fst src) (snd src) min_dp = Ok (cls, p) /\ add_default_params cls p = Ok p' /\
         construct k cls p' b = Ok (tfeed_loader k t, all_rows o (t_rows t)) /\ In cls table_classes) /\
      In (t_agg t) table_aggs /\ (In (t_agg t) ["MEAN"; "STD"] -> weighty b (t_rows t)) /\
      table_conditions_say (snd src) (t_name t) (t_conds t) /\ fill_says (snd src) (t_fill t)
  end.

(** ** Cells *)
Definition as_offered (ss : list origin) (b : boundary) (cw ch : Q) (depth : Z) (c : ecell) : Prop :=
  exists l, nested b cw ch (e_bounds c :: l) /\ Z.of_nat (List.length l) <= Z.max 0 depth /\
    (forall b', In b' l -> exists n, should_split (firstn n ss) b') /\
    (Z.of_nat (List.length l) < depth -> ~ should_split ss (e_bounds c)) /\
    (forall n, stands ss (e_bounds c :: l) n (sget (e_data c) n)).
End Tables.
(** A number, truth value or nothing, as configured. *)
Inductive states : json -> lval -> Prop :=
| st_bool x : states (JBool x) (LB x)
| st_int z : states (JInt z) (LQ (inject_Z z))
| st_float q : states (JFloat q) (LQ q)
| st_null : states JNull LNan.
Arguments Point {o}. Arguments Table {o}. Arguments mkTFeed {o}.
Arguments t_name {o}. Arguments t_agg {o}. Arguments t_conds {o}. Arguments t_fill {o}. Arguments t_rows {o}.

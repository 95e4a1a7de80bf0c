(** Specification of what a mesh generated from scalar and vector sources holds (C87). *)
From Verif Require Import Base Geo Graph Cell Loaders AddLoader VecLoader Builder Env Spec MeshSpec EnvSpec DataSpec PyStr Config ConfigSpec Params PipeSpec VecHomSpec.
Open Scope string_scope.
Open Scope Z_scope.

(** A vector source: the names of its components, whether its data is an xarray Dataset,
    how it is aggregated, the minimum number of points of a split, its conditions on the
    difference from the mean vector, and its data.  Missing components come from the
    parent. *)
Record vfeed := mkVFeed { v_names : list string; v_xr : bool; v_agg : string; v_min : Z; v_conds : list cond; v_data : data }.
Inductive source := Scalar (f : feed) | Vector (v : vfeed).
Definition names_of (s : source) : list string := match s with Scalar f => [f_name f] | Vector v => v_names v end.
Definition scalars (l : list source) : list feed := flat_map (fun s => match s with Scalar f => [f] | Vector _ => [] end) l.

(** The loader of a vector source. *)
Definition vfeed_loader (sqrt : Q -> Q) (k : nat) (v : vfeed) : loader :=
  if v_xr v then vector_xr (Z.of_nat k) (v_names v) (v_agg v) sqrt
  else vector_df (Z.of_nat k) (v_names v) (v_agg v) (v_min v) (v_data v) sqrt.

(** ** Names *)
(** No name has a comma or is a key of the mesh file; the components of a vector have
    names of their own, shared with no other source. *)
Definition no_comma (n : string) : Prop := forall a b, n <> (a ++ "," ++ b)%string.
Definition names_apart (l : list source) : Prop :=
  (forall s n, In s l -> In n (names_of s) -> no_comma n /\ ~ In n own_keys) /\
  (forall v, In (Vector v) l -> NoDup (v_names v) /\ (2 <= List.length (v_names v))%nat) /\
  (forall i j v t n, i <> j -> nth_error l i = Some (Vector v) -> nth_error l j = Some t -> In n (v_names v) -> ~ In n (names_of t)).

(** ** Values *)
Definition own_vector (sqrt : Q -> Q) (v : vfeed) (b : boundary) (vs : list (option Q)) : Prop :=
  exists pts, selected (belongs b) (v_data v) pts /\
    (if v_xr v then vector_values_xr else vector_values_df) sqrt (v_agg v) (List.length (v_names v)) pts = Ok vs.
(** The i-th component, from the innermost of the nested bounds that has one. *)
Inductive component_filled (sqrt : Q -> Q) (v : vfeed) (i : nat) : list boundary -> option Q -> Prop :=
| cf_own b l vs q : own_vector sqrt v b vs -> nth_error vs i = Some (Some q) -> component_filled sqrt v i (b :: l) (Some q)
| cf_parent b l vs o : own_vector sqrt v b vs -> nth_error vs i = Some None -> component_filled sqrt v i l o -> component_filled sqrt v i (b :: l) o
| cf_none : component_filled sqrt v i [] None.
Definition holds (sqrt : Q -> Q) (ss : list source) (l : list boundary) (n : string) (o : option jval) : Prop :=
  (exists v i q, In (Vector v) ss /\ nth_error (v_names v) i = Some n /\ component_filled sqrt v i l q /\ o = Some (JNum q)) \/
  ((forall v, In (Vector v) ss -> ~ In n (v_names v)) /\ written sqrt (scalars ss) l n o).

(** ** Splitting *)
Definition source_says (ss : list source) (b : boundary) (h : hom) : Prop :=
  says_hom (scalars ss) b h \/
  exists v c pts, In (Vector v) ss /\ In c (v_conds v) /\ selected (belongs b) (v_data v) pts /\
    vector_answer (v_min v) c (List.length (v_names v)) pts h.
Definition must_split (ss : list source) (b : boundary) : Prop :=
  source_says ss b HET /\ ~ source_says ss b HOM /\ ~ source_says ss b MIN.

(** ** Configuration *)
Definition vector_condition_says (name : string) (j : json) (c : cond) : Prop :=
  exists o p, j = JObj o /\ sget o name = Some (JObj p) /\ sget p "curl" = None /\ condition_says "dmag" (JObj p) c.
Definition vector_conditions_say (p : params) (name : string) (cs : list cond) : Prop :=
  match sget p "splitting_conditions" with
  | None => cs = []
  | Some j => exists l, j = JArr l /\ Forall2 (vector_condition_says name) l cs
  end.
Definition provides (glob : string -> list string) (construct : nat -> string -> params -> boundary -> res (loader * data))
    (sqrt : Q -> Q) (b : boundary) (min_dp : Z) (k : nat) (src : string * params) (s : source) : Prop :=
  match s with
  | Scalar f => supplies glob construct sqrt b min_dp k src f
  | Vector v =>
      (exists cls p p', get_dataloader glob (fst src) (snd src) min_dp = Ok (cls, p) /\ add_default_params cls p = Ok p' /\
         construct k cls p' b = Ok (vfeed_loader sqrt k v, v_data v) /\ sget p' "aggregate_type" = Some (JStr (v_agg v)) /\ ~ In cls table_classes) /\
      In (v_agg v) vector_aggs /\ v_min v = min_dp /\ (v_xr v = true -> v_conds v = []) /\
      (forall p, In p (v_data v) -> List.length (p_vals p) = List.length (v_names v)) /\
      vector_conditions_say (snd src) (String.concat "," (v_names v)) (v_conds v) /\ fill_says (snd src) FillParent
  end.

(** ** Cells *)
Definition as_wanted (sqrt : Q -> Q) (ss : list source) (b : boundary) (cw ch : Q) (depth : Z) (c : ecell) : Prop :=
  exists l, nested b cw ch (e_bounds c :: l) /\ Z.of_nat (List.length l) <= Z.max 0 depth /\
    (forall b', In b' l -> exists n, must_split (firstn n ss) b') /\
    (Z.of_nat (List.length l) < depth -> ~ must_split ss (e_bounds c)) /\
    (forall n, holds sqrt ss (e_bounds c :: l) n (sget (e_data c) n)).

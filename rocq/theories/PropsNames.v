(** Property theorem C63: names of data columns.  Statements only. *)
From Verif Require Import Base Geo Cell PyStr StrLib Names NamesSpec NamesProofs.
Open Scope string_scope.

(** C63.  A scalar table without a configured name takes the name of its only data
    column; a table with none or several is rejected. *)
Theorem C63_scalar_name : forall V (t : table V),
  (forall n, name_source_df None t = Ok (n, t) <-> named [n] t) /\
  ((forall n, ~ named [n] t) -> forall d, name_source_df d t = Err ValueError).
Proof.
  intros V t. split.
  - intros n. rewrite <- get_name_ok. cbn [name_source_df]. destruct (get_name_df t); cbn; split; intros H; congruence.
  - intros H [n|]; cbn [name_source_df]; unfold set_name_df; rewrite (get_name_err t H); reflexivity.
Qed.
Print Assumptions C63_scalar_name.
(** With a configured name that column is renamed; everything else is as before. *)
Theorem C63_scalar_rename : forall V (t : table V) old new, named [old] t ->
  exists t', name_source_df (Some new) t = Ok (new, t') /\ renamed [new] t t'.
Proof.
  intros V t old new N. destruct (set_name_ok t old new N) as (t' & E & R). exists t'. cbn [name_source_df]. rewrite E. split; [reflexivity|exact R].
Qed.
Print Assumptions C63_scalar_rename.
(** Datasets: likewise, and a name that is a coordinate is rejected. *)
Theorem C63_grid_rename : forall V (c : V) old new coords, NoDup (coords ++ [old])%list ->
  (~ In new coords -> set_name_xr new coords [(old, c)] = Ok [(new, c)]) /\ (In new coords -> set_name_xr new coords [(old, c)] = Err ValueError).
Proof.
  intros V c old new coords D. rewrite set_name_xr_ok by exact D. split; intros H; destruct (existsb (String.eqb new) coords) eqn:E; try reflexivity.
  - exfalso. apply existsb_exists in E as (m & I & Em). apply String.eqb_eq in Em. subst m. contradiction.
  - assert (X : existsb (String.eqb new) coords = true) by (apply existsb_exists; exists new; split; [exact H|apply String.eqb_refl]). congruence.
Qed.
Print Assumptions C63_grid_rename.
(** Vector tables with data columns of distinct names without commas: all names in order,
    or the configured ones in order; another number of names is rejected. *)
Theorem C63_vector_partial : forall V (t : table V) olds, named olds t -> olds <> [] -> (forall n, In n olds -> no_comma n) ->
  name_vector_df None t = Ok (olds, t) /\
  (NoDup olds -> forall news, news <> [] -> (forall n, In n news -> no_comma n) ->
    (List.length news = List.length olds -> exists t', name_vector_df (Some (join "," news)) t = Ok (news, t') /\ renamed news t t') /\
    (List.length news <> List.length olds -> name_vector_df (Some (join "," news)) t = Err AssertionError)).
Proof.
  intros V t olds N E C. split; [cbn [name_vector_df]; rewrite (split_names olds t N E C); reflexivity|].
  intros D news E' C'. cbn [name_vector_df]. rewrite (split_join ","%char "" news E' C'). destruct (set_names_ok olds t news N E D C) as [A B]. split; intros L.
  - destruct (A L) as (t' & X & R). exists t'. rewrite X. split; [reflexivity|exact R].
  - rewrite (B L). reflexivity.
Qed.
Print Assumptions C63_vector_partial.

Example C63_case :
  name_source_df None [("lat", 1); ("long", 2); ("SIC", 3)]%nat = Ok ("SIC", [("lat", 1); ("long", 2); ("SIC", 3)])%nat /\
  name_source_df (Some "ice") [("lat", 1); ("SIC", 3); ("long", 2)]%nat = Ok ("ice", [("lat", 1); ("ice", 3); ("long", 2)])%nat /\
  name_source_df (Some "ice") [("lat", 1); ("a", 3); ("b", 2)]%nat = Err ValueError /\
  name_vector_df None [("lat", 1); ("u", 3); ("v", 2)]%nat = Ok (["u"; "v"], [("lat", 1); ("u", 3); ("v", 2)])%nat /\
  name_vector_df (Some "uC,vC") [("u", 3); ("lat", 1); ("v", 2)]%nat = Ok (["uC"; "vC"], [("uC", 3); ("lat", 1); ("vC", 2)])%nat /\
  name_vector_df (Some "uC") [("u", 3); ("lat", 1); ("v", 2)]%nat = Err AssertionError.
Proof. repeat split. Qed.

(** False of tables: the name of a position is accepted, and then two columns have it; so
    are two equal names for a vector source. *)
Theorem C63_position_refuted : exists t', name_source_df (Some "lat") [("lat", 1); ("long", 2); ("SIC", 3)]%nat = Ok ("lat", t') /\
  map fst t' = ["lat"; "long"; "lat"].
Proof. eexists. split; reflexivity. Qed.
Print Assumptions C63_position_refuted.
Theorem C63_equal_names_refuted : exists t', name_vector_df (Some "u,u") [("a", 1); ("b", 2)]%nat = Ok (["u"; "u"], t') /\ map fst t' = ["u"; "u"].
Proof. eexists. split; reflexivity. Qed.
Print Assumptions C63_equal_names_refuted.
(** A vector table without data columns is accepted as one whose name is empty. *)
Theorem C63_no_columns_refuted : exists t : table nat, named [] t /\ t <> [] /\ name_vector_df None t = Ok ([""], t) /\
  exists t', name_vector_df (Some "u") t = Ok (["u"], t') /\ t' = t.
Proof.
  exists [("lat", 1)]%nat. split; [apply nm_keep; [left; reflexivity|constructor]|]. split; [discriminate|]. split; [reflexivity|]. eexists. split; reflexivity.
Qed.
Print Assumptions C63_no_columns_refuted.
(** Column names with a comma are read as several names. *)
Theorem C63_comma_refuted : exists t : table nat, named ["u,east"; "v,north"] t /\ name_vector_df (Some "u,v") t = Err AssertionError /\
  exists l, name_vector_df None t = Ok (l, t) /\ l = ["u"; "east"; "v"; "north"].
Proof.
  exists [("u,east", 1); ("v,north", 2)]%nat. split; [apply named_iff; reflexivity|]. split; [reflexivity|]. eexists. split; reflexivity.
Qed.
Print Assumptions C63_comma_refuted.
(** Setting the names from a list hands on a text: on two columns two names are always
    rejected unless they have one character altogether, and on the four columns of a
    source in use names of the right total length rename to single characters. *)
Theorem C63_name_list_refuted : (forall V (t : table V) a b, named [a; b] t -> no_comma a -> no_comma b -> forall x y,
    (String.length x + String.length y <> 1)%nat -> set_name_list_df [x; y] t = Err AssertionError) /\
  set_name_list_df ["a"; "bc"] [("u", 1); ("v", 2); ("m", 3); ("d", 4)]%nat = Ok [("a", 1); (",", 2); ("b", 3); ("c", 4)]%nat.
Proof.
  split; [|reflexivity]. intros V t a b N Ca Cb x y L. unfold set_name_list_df. cbn [List.length Nat.eqb negb].
  assert (C : forall n, In n [a; b] -> no_comma n) by (intros n [<-|[<-|[]]]; assumption).
  unfold set_names_df. rewrite (split_names _ t N ltac:(discriminate) C), map_length. cbn [List.length].
  assert (X : forall u v, List.length (list_ascii_of_string (u ++ v)) = (String.length u + String.length v)%nat) by (induction u; intros; cbn; [induction v; cbn; auto|rewrite IHu; reflexivity]).
  change (join "," [x; y]) with (x ++ (String "," y)). rewrite X. cbn [String.length].
  destruct (Nat.eqb_spec 2 (String.length x + S (String.length y))); [lia|reflexivity].
Qed.
Print Assumptions C63_name_list_refuted.
(** A look-up table is never renamed. *)
Theorem C63_lut_refuted : (forall V (t : table V) old new, get_name_lut t = Ok old -> set_name_lut new t = Ok t /\ get_name_lut t = Ok old) /\
  exists t : table nat, get_name_lut t = Ok "density" /\ set_name_lut "rho" t = Ok t.
Proof.
  split; [intros V t old new H; unfold set_name_lut; rewrite H; split; reflexivity|]. exists [("time", 1); ("geometry", 2); ("density", 3)]%nat. split; reflexivity.
Qed.
Print Assumptions C63_lut_refuted.

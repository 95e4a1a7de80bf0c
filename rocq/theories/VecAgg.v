(** Model of the aggregation of vectors: what abstract_vector.py adds to Loaders.v
    ([vector_values_df]) and AddLoader.v ([vector_values_xr]).  No proofs here. *)
From Verif Require Import Base Geo Cell Loaders Builder AddLoader.
Open Scope Q_scope.

(** A DataFrame with the labels of its rows. *)
Definition frame := list (nat * point).
(** vector_csv.py 20-24: each file read has labels 0, 1, ...; [pd.concat] keeps them. *)
Definition read_csv (d : data) : frame := combine (seq 0 (List.length d)) d.
Definition concat_csv (files : list data) : frame := flat_map read_csv files.
(** [data.loc[mask]] keeps the labels. *)
Definition frame_trim (b : boundary) (d : frame) : frame := filter (fun r => df_spatial b (snd r) && in_time b (snd r)) d.
Definition rows (d : frame) : data := map snd d.

(** abstract_vector.py 422-433: [idxmin] and [idxmax] give a label; [dps[name][label]] is a
    number if one row has the label, and a Series if several have: cellbox.py 364 then
    raises ValueError when it asks whether it is NaN. *)
Fixpoint arg_label (better : Q -> Q -> bool) (cur : option (nat * Q)) (d : frame) : option (nat * Q) :=
  match d with
  | [] => cur
  | (k, p) :: d' =>
      match mag2 p with
      | None => arg_label better cur d'
      | Some m => match cur with
                  | None => arg_label better (Some (k, m)) d'
                  | Some (_, m0) => arg_label better (if better m m0 then Some (k, m) else cur) d'
                  end
      end
  end.
Definition by_label (n : nat) (k : nat) (d : frame) : res (list (option Q)) :=
  match filter (fun r => Nat.eqb (fst r) k) d with
  | [] => Err KeyError
  | [(_, p)] => Ok (map (fun i => nth i (p_vals p) None) (seq 0 n))
  | _ => Err ValueError
  end.
Definition vector_values_frame (sqrt : Q -> Q) (agg_type : string) (n : nat) (d : frame) : res (list (option Q)) :=
  let extreme better := match arg_label better None d with
                        | Some (k, _) => by_label n k d
                        | None => Ok (map (fun _ => None) (seq 0 n))
                        end in
  if Nat.eqb (List.length d) 0 then vector_values_df sqrt agg_type n (rows d)
  else if String.eqb agg_type "MIN" then extreme qltb
  else if String.eqb agg_type "MAX" then extreme (fun a b => qltb b a)
  else vector_values_df sqrt agg_type n (rows d).
Definition vector_value_frame (sqrt : Q -> Q) (agg_type : string) (names : list string) (d : frame) : res (sdict (option Q)) :=
  vs <- vector_values_frame sqrt agg_type (List.length names) d ;; Ok (combine names vs).

(** abstract_vector.py 478-485: COUNT of a Dataset with a known vector, by [skipna]. *)
Definition vector_count_xr (skipna : bool) (n : nat) (d : data) : list Q :=
  map (fun i => if skipna then qlen d else qlen (drop_nan (column i d))) (seq 0 n).

(** abstract_vector.py 204-222 [add_mag_dir_to_xr]: the magnitudes are an array laid out as
    the components, of dimensions [dims], labelled with the dimensions of the Dataset,
    [order].  [sizes] gives the size of each dimension; a wrong size raises ValueError.
    The result gives the magnitude at the coordinates of each dimension. *)
Definition relabel {A} (dims order : list string) (sizes : string -> nat) (a : list nat -> A) : res ((string -> nat) -> A) :=
  if negb (Nat.eqb (List.length dims) (List.length order)) then Err ValueError
  else if forallb (fun xy => Nat.eqb (sizes (fst xy)) (sizes (snd xy))) (combine dims order) then Ok (fun at_ => a (map at_ order))
  else Err ValueError.

(** Specification of the aggregates of a cell (C103) and of the blocks of a grid, column by
    column (C61). *)
From Coq Require Import Permutation Sorted.
From Verif Require Import Base Geo Cell Loaders DownSpec.
Open Scope Q_scope.

Fixpoint known_values (l : list (option Q)) : list Q :=
  match l with [] => [] | Some x :: l' => x :: known_values l' | None :: l' => known_values l' end.
(** The middle one of the known values in order, or the mean of the two in the middle. *)
Definition median_of (l : list (option Q)) (v : option Q) : Prop :=
  match v with
  | None => none_known l
  | Some q => exists s, Permutation s (known_values l) /\ StronglySorted Qle s /\
      exists k, (List.length s = 2 * k + 1 /\ nth_error s k = Some q)%nat \/
                exists a b, (List.length s = 2 * k + 2 /\ nth_error s k = Some a /\ nth_error s (S k) = Some b)%nat /\ q + q == a + b
  end.
(** The root of the squared deviations from the mean, divided by their number less [less];
    missing if that is nothing. *)
Definition deviation_of (root : Q -> Q) (less : Q) (l : list (option Q)) (v : option Q) : Prop :=
  match v with
  | None => none_known l \/ number l == less
  | Some q => exists mean x, mean_of l (Some mean) /\ ~ number l == less /\
      x * (number l - less) == total (map (option_map (fun y => (y - mean) * (y - mean))) l) /\ q = root x
  end.
(** The values of variable [v] at time [t] at one longitude of a block. *)
Definition block_column (ds : xrds) (v t : nat) (bl : list (Q * nat)) (lo : Q * nat) : list (option Q) :=
  map (fun la => nth v (x_val ds (snd la) (snd lo) t) None) bl.
(** First each longitude of the block, then what came of them. *)
Definition in_steps (agg : list (option Q) -> option Q -> Prop) (m n : Z) (ds ds' : xrds) : Prop :=
  blocked (Z.to_nat n) (x_lat ds) (x_lat ds') /\ blocked (Z.to_nat m) (x_long ds) (x_long ds') /\ x_time ds' = x_time ds /\
  forall I J la lo t v bl bo, nth_error (x_lat ds') I = Some la -> nth_error (x_long ds') J = Some lo ->
    is_block (Z.to_nat n) I (x_lat ds) bl -> is_block (Z.to_nat m) J (x_long ds) bo ->
    exists cs, Forall2 (fun lo c => agg (block_column ds v t bl lo) c) bo cs /\ agg cs (nth v (x_val ds' (snd la) (snd lo) t) None).
(** What an aggregate type asks for.  A DataFrame divides the squared deviations by the
    number of values less one, a Dataset by their number. *)
Definition asked_for (from_xr : bool) (root : Q -> Q) (agg : string) (l : list (option Q)) (v : option Q) : Prop :=
  (agg = "MIN"%string /\ least l v) \/ (agg = "MAX"%string /\ greatest l v) \/ (agg = "MEAN"%string /\ mean_of l v) \/ (agg = "MEDIAN"%string /\ median_of l v) \/
  (agg = "STD"%string /\ deviation_of root (if from_xr then 0 else 1) l v) \/ (agg = "RMSE"%string /\ from_xr = true /\ deviation_of root 0 l v).

(** Specification of downsampling (C61). *)
From Verif Require Import Base Geo Cell Loaders.
Open Scope Q_scope.

(** [b] is the I-th block of [n] entries of [l]; the last block may be shorter. *)
Definition is_block {A} (n I : nat) (l b : list A) : Prop :=
  forall r, nth_error b r = if (r <? n)%nat then nth_error l (I * n + r)%nat else None.
(** The axis of the blocks: one entry for each block that is not empty, at the mean of
    its coordinates. *)
Definition blocked (n : nat) (axis axis' : list (Q * nat)) : Prop :=
  forall I, match nth_error axis' I with
            | Some (c, _) => exists b, is_block n I axis b /\ b <> [] /\ c == qmean (map fst b)
            | None => forall b, is_block n I axis b -> b = []
            end.
(** The values of variable [v] at time [t] in a block. *)
Definition block_values (ds : xrds) (v t : nat) (bl bo : list (Q * nat)) : list (option Q) :=
  flat_map (fun lo => map (fun la => nth v (x_val ds (snd la) (snd lo) t) None) bl) bo.
(** [ds'] holds the aggregates of the blocks of [m] longitudes by [n] latitudes. *)
Definition downsampled (agg : list (option Q) -> option Q -> Prop) (m n : Z) (ds ds' : xrds) : Prop :=
  blocked (Z.to_nat n) (x_lat ds) (x_lat ds') /\ blocked (Z.to_nat m) (x_long ds) (x_long ds') /\ x_time ds' = x_time ds /\
  forall I J la lo t v bl bo, nth_error (x_lat ds') I = Some la -> nth_error (x_long ds') J = Some lo ->
    is_block (Z.to_nat n) I (x_lat ds) bl -> is_block (Z.to_nat m) J (x_long ds) bo ->
    agg (block_values ds v t bl bo) (nth v (x_val ds' (snd la) (snd lo) t) None).

(** Aggregates; missing values do not count. *)
Definition none_known (l : list (option Q)) : Prop := forall x, ~ In (Some x) l.
Definition least (l : list (option Q)) (v : option Q) : Prop :=
  match v with None => none_known l | Some q => In (Some q) l /\ forall x, In (Some x) l -> q <= x end.
Definition greatest (l : list (option Q)) (v : option Q) : Prop :=
  match v with None => none_known l | Some q => In (Some q) l /\ forall x, In (Some x) l -> x <= q end.
Fixpoint total (l : list (option Q)) : Q := match l with [] => 0 | Some x :: l' => x + total l' | None :: l' => total l' end.
Fixpoint number (l : list (option Q)) : Q := match l with [] => 0 | Some x :: l' => 1 + number l' | None :: l' => number l' end.
Definition mean_of (l : list (option Q)) (v : option Q) : Prop :=
  match v with None => none_known l | Some q => ~ none_known l /\ q * number l == total l end.
(** Between the least and the greatest known value. *)
Definition within_values (l : list (option Q)) (v : option Q) : Prop :=
  match v with
  | None => none_known l
  | Some q => exists a b, In (Some a) l /\ In (Some b) l /\ a <= q <= b
  end.

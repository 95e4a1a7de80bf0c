(** Specification of imported forecasts (C74). *)
From Verif Require Import Base Geo Cell Spec DataSpec Forecast.
Open Scope Q_scope.

(** The predictions of the forecast made on day [run] for [n] days from day [t0], in
    percent. *)
Definition predictions (ds : icenet_ds) (run t0 : Z) (n : nat) : data :=
  flat_map (fun k => let day := (t0 + Z.of_nat k)%Z in
    map (fun c => mkP (fst (snd c)) (snd (snd c)) (Some day) [option_map (fun x => x * 100) (i_sic ds run (day - run)%Z (fst c))])
        (combine (seq 0 (List.length (i_cells ds))) (i_cells ds))) (seq 0 n).
(** The last of the days before [t0]. *)
Definition last_before (runs : list Z) (t0 run : Z) : Prop :=
  In run runs /\ (run < t0)%Z /\ forall r, In r runs -> (r < t0)%Z -> (r <= run)%Z.
(** The values of file [f], valid at hour [h], at the points of a grid. *)
Definition grid_point (values : nat -> nat -> list (option Q)) (lats longs : list (Q * nat)) (h : Z) (p : point) : Prop :=
  exists la i lo j, In (la, i) lats /\ In (lo, j) longs /\ p = mkP la lo (Some h) (values i j).

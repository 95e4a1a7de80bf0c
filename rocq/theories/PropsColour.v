(** Property theorem C78: the default colours of an exported image. *)
From Coq Require Import String.
From Verif Require Import Base QLib Colour.
Open Scope Z_scope.

(** Least and greatest of the values present. *)
Definition greatest (data : list (option Q)) (q : Q) : Prop := In (Some q) data /\ forall v, In (Some v) data -> (v <= q)%Q.
Definition least (data : list (option Q)) (q : Q) : Prop := In (Some q) data /\ forall v, In (Some v) data -> (q <= v)%Q.

(** ** Lemmas *)
Lemma not_nan_in l q : In q (not_nan l) <-> In (Some q) l.
Proof.
  induction l as [|[x|] l IH]; cbn; [tauto|rewrite IH; intuition congruence|rewrite IH; intuition congruence].
Qed.
Lemma maximum_spec l : l <> [] -> exists m, maximum l = Ok m /\ In m l /\ forall v, In v l -> (v <= m)%Q.
Proof.
  destruct l as [|q l]; [congruence|]. intros _. eexists. split; [reflexivity|]. revert q. induction l as [|x l IH]; intros q; cbn [fold_left].
  - split; [left; auto|]. intros v [->|[]]. lra.
  - destruct (IH (if qltb q x then x else q)) as (I & M). split.
    + destruct I as [I|I]; [|right; right; auto]. destruct (qltb q x); [right; left; auto|left; auto].
    + intros v Hv. assert (X : (q <= if qltb q x then x else q)%Q /\ (x <= if qltb q x then x else q)%Q).
      { destruct (qltb_spec q x); split; lra. }
      pose proof (M _ (or_introl eq_refl)) as M0. destruct Hv as [->|[->|Hv]]; [lra|lra|apply M; right; auto].
Qed.
Lemma minimum_spec l : l <> [] -> exists m, minimum l = Ok m /\ In m l /\ forall v, In v l -> (m <= v)%Q.
Proof.
  destruct l as [|q l]; [congruence|]. intros _. eexists. split; [reflexivity|]. revert q. induction l as [|x l IH]; intros q; cbn [fold_left].
  - split; [left; auto|]. intros v [->|[]]. lra.
  - destruct (IH (if qltb x q then x else q)) as (I & M). split.
    + destruct I as [I|I]; [|right; right; auto]. destruct (qltb x q); [right; left; auto|left; auto].
    + intros v Hv. assert (X : (q >= if qltb x q then x else q)%Q /\ (x >= if qltb x q then x else q)%Q).
      { destruct (qltb_spec x q); split; lra. }
      pose proof (M _ (or_introl eq_refl)) as M0. destruct Hv as [->|[->|Hv]]; [lra|lra|apply M; right; auto].
Qed.
(** [py_int] is the truncation. *)
Lemma py_int_spec q : (0 <= q -> inject_Z (py_int q) <= q /\ q < inject_Z (py_int q) + 1)%Q /\
  (q <= 0 -> q <= inject_Z (py_int q) /\ inject_Z (py_int q) - 1 < q)%Q.
Proof.
  destruct q as [n d]. unfold py_int, Qle, Qlt, Qplus, Qminus, Qopp, inject_Z. cbn [Qnum Qden].
  pose proof (Z.quot_rem' n (Zpos d)) as E. set (r := Z.rem n (Zpos d)) in *. set (k := Z.quot n (Zpos d)) in *.
  change (Zpos (1 * 1)) with 1. rewrite ?Pos2Z.inj_mul, ?Z.mul_1_r, ?Z.mul_1_l.
  split; intros H.
  - assert (B : 0 <= r < Zpos d) by (apply Z.rem_bound_pos; lia). nia.
  - assert (B : - Zpos d < r <= 0) by (split; [pose proof (Z.rem_bound_abs n (Zpos d)); lia|apply Z.rem_nonpos; lia]).
    replace (Qnum ((k # 1) + (- (1) # 1))) with (k - 1) by (unfold Qplus; cbn [Qnum Qden]; lia). nia.
Qed.
Lemma py_int_mono p q : (p <= q)%Q -> py_int p <= py_int q.
Proof.
  intros L. destruct (py_int_spec p) as (P1 & P2). destruct (py_int_spec q) as (Q1 & Q2).
  destruct (Qlt_le_dec p 0) as [Hp|Hp]; destruct (Qlt_le_dec q 0) as [Hq|Hq].
  - destruct P2 as (a & b); [lra|]. destruct Q2 as (c & d); [lra|]. assert (X : (inject_Z (py_int p) < inject_Z (py_int q + 1))%Q) by (rewrite inject_Z_plus; change (inject_Z 1) with 1%Q; lra).
    rewrite <- Zlt_Qlt in X. lia.
  - destruct P2 as (a & b); [lra|]. destruct Q1 as (c & d); auto.
    assert (X : (inject_Z (py_int p) < inject_Z 1)%Q) by (change (inject_Z 1) with 1%Q; lra). assert (Y : (inject_Z (-1) < inject_Z (py_int q))%Q) by (change (inject_Z (-1)) with (-1)%Q; lra).
    rewrite <- Zlt_Qlt in X, Y. lia.
  - lra.
  - destruct P1 as (a & b); auto. destruct Q1 as (c & d); auto. assert (X : (inject_Z (py_int p) < inject_Z (py_int q + 1))%Q) by (rewrite inject_Z_plus; change (inject_Z 1) with 1%Q; lra).
    rewrite <- Zlt_Qlt in X. lia.
Qed.
Lemma py_int_eq p q : (p == q)%Q -> py_int p = py_int q.
Proof. intros E. apply Z.le_antisymm; apply py_int_mono; lra. Qed.
(** The table in terms of the least and greatest value. *)
Lemma table_ok data : (exists v, In (Some v) data) -> exists mn mx t1 t2 t3, least data mn /\ greatest data mx /\
  colour_table data = Ok [(Some t1, "255 255 255"); (Some t2, "173 216 230"); (Some t3, "0 0 128"); (Some t3, "0 0 139"); (None, "255 0 0")]%string /\
  t1 = py_int (mn + (mx - mn) * (1#4)) /\ t2 = py_int (mn + (mx - mn) * (1#2)) /\ t3 = py_int (mn + (mx - mn) * (3#4)).
Proof.
  intros (v & Hv). assert (Ne : not_nan data <> []). { intros E. apply not_nan_in in Hv. rewrite E in Hv. destruct Hv. }
  destruct (maximum_spec _ Ne) as (mx & Ex & Ix & Mx). destruct (minimum_spec _ Ne) as (mn & En & In_ & Mn).
  exists mn, mx. do 3 eexists. split; [|split; [|split; [|split; [reflexivity|split; reflexivity]]]].
  - split; [apply not_nan_in; auto|]. intros w Hw. apply Mn, not_nan_in; auto.
  - split; [apply not_nan_in; auto|]. intros w Hw. apply Mx, not_nan_in; auto.
  - unfold colour_table. cbv zeta. rewrite Ex. cbn [bind]. rewrite En. cbn [bind].
    cbn -[py_int inject_Z Qplus Qminus Qmult Qdiv]. 
    change (inject_Z 1) with 1%Q. change (inject_Z 2) with 2%Q. change (inject_Z 3) with 3%Q. change (inject_Z 4) with 4%Q.
    rewrite (py_int_eq (mn + 1 * (mx - mn) / 4) (mn + (mx - mn) * (1#4))) by field.
    rewrite (py_int_eq (mn + 2 * (mx - mn) / 4) (mn + (mx - mn) * (1#2))) by field.
    rewrite (py_int_eq (mn + 3 * (mx - mn) / 4) (mn + (mx - mn) * (3#4))) by field.
    rewrite (py_int_eq (mx - (mx - mn) / 4) (mn + (mx - mn) * (3#4))) by field. reflexivity.
Qed.
Lemma py_int_near q : (q - 1 < inject_Z (py_int q) /\ inject_Z (py_int q) < q + 1)%Q.
Proof. destruct (py_int_spec q) as (A & B). destruct (Qlt_le_dec q 0) as [H|H]; [destruct B; lra|destruct A; lra]. Qed.
Lemma py_int_apart p q : (p + 2 <= q)%Q -> py_int p < py_int q.
Proof. intros L. rewrite Zlt_Qlt. destruct (py_int_near p), (py_int_near q). lra. Qed.

(** ** Theorems *)

(** C78.  With any value at all there is a table: the four colours, then red for
    nan, at thresholds that never decrease. *)
Theorem C78_table : forall data, (exists v, In (Some v) data) ->
  exists t1 t2 t3 t4, colour_table data = Ok [(Some t1, "255 255 255"); (Some t2, "173 216 230"); (Some t3, "0 0 128"); (Some t4, "0 0 139"); (None, "255 0 0")]%string /\
    t1 <= t2 <= t3 /\ t3 <= t4.
Proof.
  intros data H. destruct (table_ok data H) as (mn & mx & t1 & t2 & t3 & (L & L') & (G & G') & E & E1 & E2 & E3).
  exists t1, t2, t3, t3. split; auto. pose proof (L' _ G) as M. subst. split; [split|]; try apply py_int_mono; try lra.
Qed.
Print Assumptions C78_table.

(** For values spread over at least 8, the first three thresholds are distinct, are
    within the values, and are within 1 of the quarters of the range. *)
Theorem C78_partial : forall data mn mx, least data mn -> greatest data mx -> (mn + 8 <= mx)%Q ->
  exists t1 t2 t3 t4, colour_table data = Ok [(Some t1, "255 255 255"); (Some t2, "173 216 230"); (Some t3, "0 0 128"); (Some t4, "0 0 139"); (None, "255 0 0")]%string /\
    t1 < t2 /\ t2 < t3 /\ (mn <= inject_Z t1)%Q /\ (inject_Z t4 <= mx)%Q /\
    forall i t, nth_error [t1; t2; t3] i = Some t ->
      let quarter := (mn + inject_Z (Z.of_nat i + 1) * (mx - mn) * (1#4))%Q in (quarter - 1 < inject_Z t /\ inject_Z t < quarter + 1)%Q.
Proof.
  intros data mn mx (L & L') (G & G') R. destruct (table_ok data) as (mn' & mx' & t1 & t2 & t3 & (P & P') & (Q & Q') & E & E1 & E2 & E3); eauto.
  assert (X1 : (mn' == mn)%Q) by (apply Qle_antisym; auto). assert (X2 : (mx' == mx)%Q) by (apply Qle_antisym; auto).
  exists t1, t2, t3, t3. split; auto.
  pose proof (py_int_near (mn' + (mx' - mn') * (1#4))) as (a1 & a2). rewrite <- E1 in a1, a2.
  pose proof (py_int_near (mn' + (mx' - mn') * (1#2))) as (b1 & b2). rewrite <- E2 in b1, b2.
  pose proof (py_int_near (mn' + (mx' - mn') * (3#4))) as (c1 & c2). rewrite <- E3 in c1, c2.
  split; [subst; apply py_int_apart; lra|]. split; [subst; apply py_int_apart; lra|]. split; [lra|]. split; [lra|].
  intros [|[|[|i]]] t; cbn [nth_error]; intros H; try injection H as <-; cbv zeta; try (change (inject_Z (Z.of_nat 0 + 1)) with 1%Q); try (change (inject_Z (Z.of_nat 1 + 1)) with 2%Q); try (change (inject_Z (Z.of_nat 2 + 1)) with 3%Q); try lra.
  destruct i; discriminate.
Qed.
Print Assumptions C78_partial.

(** The third and fourth colour always have the same threshold. *)
Theorem C78_repeated : forall data l, colour_table data = Ok l ->
  exists t, nth_error l 2 = Some (Some t, "0 0 128"%string) /\ nth_error l 3 = Some (Some t, "0 0 139"%string).
Proof.
  intros data l E. assert (H : exists v, In (Some v) data).
  { unfold colour_table in E. cbv zeta in E. destruct (not_nan data) as [|v r] eqn:En; [discriminate|].
    exists v. apply not_nan_in. rewrite En. left; auto. }
  destruct (table_ok data H) as (mn & mx & t1 & t2 & t3 & _ & _ & E' & _). rewrite E in E'. injection E' as ->.
  exists t3. split; reflexivity.
Qed.
Print Assumptions C78_repeated.

(** For values between -1 and 1, such as any fraction, every threshold is 0. *)
Theorem C78_fractions : forall data, (exists v, In (Some v) data) -> (forall v, In (Some v) data -> (-1 < v /\ v < 1)%Q) ->
  colour_table data = Ok [(Some 0, "255 255 255"); (Some 0, "173 216 230"); (Some 0, "0 0 128"); (Some 0, "0 0 139"); (None, "255 0 0")]%string.
Proof.
  intros data H B. destruct (table_ok data H) as (mn & mx & t1 & t2 & t3 & (P & P') & (Q & Q') & E & E1 & E2 & E3).
  destruct (B _ P) as (p1 & p2). destruct (B _ Q) as (q1 & q2). pose proof (P' _ Q) as M.
  assert (Z0 : forall q, (-1 < q /\ q < 1)%Q -> py_int q = 0).
  { intros q (a & b). destruct (py_int_spec q) as (U & V).
    destruct (Qlt_le_dec q 0) as [Hq|Hq].
    - destruct V as (c & d); [lra|]. assert (X : (inject_Z (-1) < inject_Z (py_int q))%Q) by (change (inject_Z (-1)) with (-1)%Q; lra).
      assert (Y : (inject_Z (py_int q) < inject_Z 1)%Q) by (change (inject_Z 1) with 1%Q; lra). rewrite <- Zlt_Qlt in X, Y. lia.
    - destruct U as (c & d); [lra|]. assert (X : (inject_Z (-1) < inject_Z (py_int q))%Q) by (change (inject_Z (-1)) with (-1)%Q; lra).
      assert (Y : (inject_Z (py_int q) < inject_Z 1)%Q) by (change (inject_Z 1) with 1%Q; lra). rewrite <- Zlt_Qlt in X, Y. lia. }
  rewrite E, E1, E2, E3, !Z0; auto; split; lra.
Qed.
Print Assumptions C78_fractions.

(** Without a single value, as for a name no cell has, the call fails, after the
    image has been written. *)
Theorem C78_empty : forall n, colour_table (repeat None n) = Err ValueError.
Proof. intros n. unfold colour_table. replace (not_nan (repeat None n)) with (@nil Q); [reflexivity|]. induction n; cbn; auto. Qed.
Print Assumptions C78_empty.

(** So the full claim, four distinct colours for data with at least two values, or
    at least an image for every mesh, is false. *)
Definition distinct_steps (l : list (option Z * string)) : Prop :=
  forall i j ti tj ci cj, (i < j)%nat -> nth_error l i = Some (Some ti, ci) -> nth_error l j = Some (Some tj, cj) -> ti < tj.
Theorem C78_refuted : (forall data l, colour_table data = Ok l -> ~ distinct_steps l) /\
  (exists data l u v, In (Some u) data /\ In (Some v) data /\ (u < v)%Q /\ colour_table data = Ok l /\
     forall i t c, nth_error l i = Some (Some t, c) -> t = 0) /\
  exists data, data <> [] /\ colour_table data = Err ValueError.
Proof.
  split; [|split].
  - intros data l E D. destruct (C78_repeated data l E) as (t & A & B).
    assert (X : t < t) by (apply (D 2%nat 3%nat t t "0 0 128"%string "0 0 139"%string); [lia|exact A|exact B]). lia.
  - exists [Some (1#5); Some (9#10)]%Q. eexists. exists (1#5)%Q, (9#10)%Q. split; [left; auto|]. split; [right; left; auto|].
    split; [lra|]. split; [vm_compute; reflexivity|].
    intros i t c. do 5 (destruct i as [|i]; [cbn; congruence|]). destruct i; discriminate.
  - exists [None]. split; [discriminate|reflexivity].
Qed.
Print Assumptions C78_refuted.

(** Non-trivial cases: a sea ice concentration in percent with gaps, a depth, and a
    fraction. *)
Definition sic : list (option Q) := [Some 0; None; Some (355#10); Some 100; Some (41#2)]%Q.
Example C78_case : least sic 0 /\ greatest sic 100 /\
  colour_table sic = Ok [(Some 25, "255 255 255"); (Some 50, "173 216 230"); (Some 75, "0 0 128"); (Some 75, "0 0 139"); (None, "255 0 0")]%string /\
  colour_table [Some (-4200); Some (7#2)]%Q = Ok [(Some (-3149), "255 255 255"); (Some (-2098), "173 216 230"); (Some (-1047), "0 0 128"); (Some (-1047), "0 0 139"); (None, "255 0 0")]%string /\
  colour_table [Some (1#5); Some (9#10)]%Q = Ok [(Some 0, "255 255 255"); (Some 0, "173 216 230"); (Some 0, "0 0 128"); (Some 0, "0 0 139"); (None, "255 0 0")]%string.
Proof.
  split; [|split; [|split; [|split]]]; try reflexivity; (split; [cbn; tauto|]); intros v Hv; cbn in Hv;
  repeat (destruct Hv as [Hv|Hv]; [try discriminate; injection Hv as <-; lra|]); destruct Hv.
Qed.

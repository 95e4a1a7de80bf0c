(** Lemmas on dictionaries and on the monadic loops. *)
From Verif Require Import Base.
Open Scope Z_scope.

Lemma key_eqb_spec a b : reflect (a = b) (key_eqb a b).
Proof.
  destruct a, b; cbn; try (constructor; congruence);
  destruct (Z.eqb_spec z z0); constructor; congruence.
Qed.
Lemma key_eqb_refl a : key_eqb a a = true.
Proof. destruct (key_eqb_spec a a); congruence. Qed.

Section D.
Context {V : Type}.
Implicit Types d : dict V.

Lemma dget_dset d k v k' :
  dget_opt (dset d k v) k' = if key_eqb k' k then Some v else dget_opt d k'.
Proof.
  induction d as [|[k0 v0] d IH]; cbn.
  - destruct (key_eqb_spec k' k); auto.
  - destruct (key_eqb_spec k k0); cbn.
    + subst. destruct (key_eqb_spec k' k0); auto.
    + rewrite IH. destruct (key_eqb_spec k' k0), (key_eqb_spec k' k); subst; auto. congruence.
Qed.

Lemma dget_In d k v : dget_opt d k = Some v -> In (k, v) d.
Proof.
  induction d as [|[k0 v0] d IH]; cbn; [discriminate|].
  destruct (key_eqb_spec k k0); intros; auto. left. congruence.
Qed.
Lemma dget_keys d k : (exists v, dget_opt d k = Some v) <-> In k (dkeys d).
Proof.
  induction d as [|[k0 v0] d IH]; cbn.
  - split; [intros [? ?]; discriminate | tauto].
  - destruct (key_eqb_spec k k0).
    + subst. split; eauto.
    + rewrite IH. split; auto. intros [?|?]; auto. congruence.
Qed.
Lemma dget_none d k : dget_opt d k = None <-> ~ In k (dkeys d).
Proof.
  rewrite <- dget_keys. destruct (dget_opt d k); split; try congruence.
  - intros H. destruct H. eauto.
  - intros _ [? ?]. discriminate.
Qed.
Lemma dset_keys_in d k v : In k (dkeys d) -> dkeys (dset d k v) = dkeys d.
Proof.
  induction d as [|[k0 v0] d IH]; cbn; [tauto|].
  destruct (key_eqb_spec k k0); cbn; auto. intros [?|?]; [congruence|]. f_equal; auto.
Qed.
Lemma dset_keys_notin d k v : ~ In k (dkeys d) -> dset d k v = d ++ [(k, v)].
Proof.
  induction d as [|[k0 v0] d IH]; cbn; auto.
  intros H. destruct (key_eqb_spec k k0); cbn.
  - subst. tauto.
  - rewrite IH; auto.
Qed.
Lemma dset_keys d k v k' : In k' (dkeys (dset d k v)) <-> k' = k \/ In k' (dkeys d).
Proof.
  rewrite <- !dget_keys. split.
  - intros [x H]. rewrite dget_dset in H. destruct (key_eqb_spec k' k); eauto.
  - intros [->|[x H]].
    + exists v. rewrite dget_dset, key_eqb_refl. auto.
    + destruct (key_eqb_spec k' k) as [->|N].
      * exists v. rewrite dget_dset, key_eqb_refl. auto.
      * exists x. rewrite dget_dset. destruct (key_eqb_spec k' k); auto. congruence.
Qed.
Lemma dset_nodup d k v : NoDup (dkeys d) -> NoDup (dkeys (dset d k v)).
Proof.
  intros H. destruct (in_dec (fun a b => match key_eqb_spec a b with ReflectT _ e => left e | ReflectF _ n => right n end) k (dkeys d)) as [I|N].
  - rewrite dset_keys_in; auto.
  - rewrite dset_keys_notin by auto. unfold dkeys. rewrite map_app. cbn.
    rewrite <- rev_involutive. apply NoDup_rev. rewrite rev_app_distr. cbn. constructor.
    + rewrite <- in_rev. auto.
    + apply NoDup_rev. auto.
Qed.

Lemma dget_filter d k k' :
  dget_opt (filter (fun kv => negb (key_eqb k (fst kv))) d) k' =
  if key_eqb k' k then None else dget_opt d k'.
Proof.
  induction d as [|[k0 v0] d IH]; cbn.
  - destruct (key_eqb k' k); auto.
  - destruct (key_eqb_spec k k0); cbn.
    + subst. rewrite IH. destruct (key_eqb_spec k' k0); auto.
    + rewrite IH. destruct (key_eqb_spec k' k0), (key_eqb_spec k' k); subst; auto. congruence.
Qed.
Lemma filter_nodup_keys d p : NoDup (dkeys d) -> NoDup (dkeys (filter p d)).
Proof.
  induction d as [|kv d IH]; cbn; auto. intros H. inversion H; subst.
  destruct (p kv); cbn; auto. constructor; auto.
  intro I. apply H2. unfold dkeys in *. rewrite in_map_iff in *. destruct I as (x & ? & I).
  apply filter_In in I. exists x. tauto.
Qed.
End D.

Lemma foldM_app {A S} (f : S -> A -> res S) s l1 l2 :
  foldM f s (l1 ++ l2) = (s' <- foldM f s l1 ;; foldM f s' l2).
Proof.
  revert s. induction l1 as [|x l1 IH]; intros; cbn; auto.
  destruct (f s x); cbn; auto.
Qed.

(** Invariant rule for [foldM]: [P] relates the processed prefix and the state. *)
Lemma foldM_inv {A S} (P : list A -> S -> Prop) (f : S -> A -> res S) l :
  forall s0, P [] s0 ->
  (forall pre x post s, l = pre ++ x :: post -> P pre s -> exists s', f s x = Ok s' /\ P (pre ++ [x]) s') ->
  exists s', foldM f s0 l = Ok s' /\ P l s'.
Proof.
  intros s0 H0 Hs.
  assert (X : forall post pre s, l = pre ++ post -> P pre s -> exists s', foldM f s post = Ok s' /\ P l s').
  { induction post as [|x post IH]; intros pre s E HP.
    - rewrite app_nil_r in E. subst. exists s. auto.
    - destruct (Hs pre x post s E HP) as (s1 & E1 & H1).
      destruct (IH (pre ++ [x]) s1) as (s2 & E2 & H2).
      + rewrite <- app_assoc. auto.
      + auto.
      + exists s2. cbn. rewrite E1. cbn. auto. }
  apply (X l []); auto.
Qed.

Lemma foldM_ext {A S} (f f' : S -> A -> res S) l : (forall s x, In x l -> f s x = f' s x) ->
  forall s, foldM f s l = foldM f' s l.
Proof.
  induction l as [|x l IH]; intros H s; cbn; auto.
  rewrite H by (left; auto). destruct (f' s x); cbn; auto. apply IH. intros; apply H; right; auto.
Qed.

(** Removing the first occurrence. *)
Definition rem (x : Z) (l : list Z) : list Z := filter (fun y => negb (Z.eqb x y)) l.

Lemma lremove_rem x l : NoDup l -> In x l -> lremove x l = Ok (rem x l).
Proof.
  induction l as [|y l IH]; cbn; [tauto|]. intros N I. inversion N; subst.
  destruct (Z.eqb_spec x y); cbn.
  - subst. f_equal. unfold rem. symmetry.
    rewrite <- (filter_ext_in (fun _ => true)).
    + clear. induction l; cbn; congruence.
    + intros a Ha. destruct (Z.eqb_spec y a); auto. congruence.
  - destruct I; [congruence|]. rewrite IH; auto.
Qed.
Lemma rem_In x l y : In y (rem x l) <-> In y l /\ y <> x.
Proof.
  unfold rem. rewrite filter_In. destruct (Z.eqb_spec x y); cbn; intuition congruence.
Qed.
Lemma rem_NoDup x l : NoDup l -> NoDup (rem x l).
Proof. apply NoDup_filter. Qed.

(** Python list access. *)
Lemma py_nth_some {A} (l : list A) (n : nat) a : nth_error l n = Some a -> py_nth l (Z.of_nat n) = Ok a.
Proof.
  intros H. unfold py_nth. destruct (Z.ltb_spec (Z.of_nat n) 0); [lia|].
  destruct (Z.ltb_spec (Z.of_nat n) 0); [lia|]. rewrite Nat2Z.id, H. auto.
Qed.
Lemma py_nth_ok {A} (l : list A) i a : 0 <= i -> py_nth l i = Ok a -> nth_error l (Z.to_nat i) = Some a.
Proof.
  intros H. unfold py_nth. destruct (Z.ltb_spec i 0); [lia|].
  destruct (Z.ltb_spec i 0); [lia|].
  destruct (nth_error l (Z.to_nat i)); congruence.
Qed.

Lemma mapM_ok {A B} (f : A -> res B) l ys : mapM f l = Ok ys ->
  length ys = length l /\ forall n x, nth_error l n = Some x -> exists y, f x = Ok y /\ nth_error ys n = Some y.
Proof.
  revert ys. induction l as [|x l IH]; cbn; intros ys H.
  - injection H as <-. split; auto. intros [|n]; discriminate.
  - destruct (f x) as [y|] eqn:E; cbn in H; [|discriminate].
    destruct (mapM f l) as [ys'|]; cbn in H; [|discriminate]. injection H as <-.
    destruct (IH ys' eq_refl) as [L N]. split; cbn; auto.
    intros [|n] x' Hx; cbn in *; [injection Hx as <-; eauto | auto].
Qed.
Lemma mapM_total {A B} (f : A -> res B) (h : A -> B) l :
  (forall x, In x l -> f x = Ok (h x)) -> mapM f l = Ok (map h l).
Proof.
  induction l as [|x l IH]; intros H; cbn; auto.
  rewrite H by (left; auto). cbn. rewrite IH by (intros; apply H; right; auto). auto.
Qed.

Lemma list_set_length {A} (l : list A) i v : length (list_set l i v) = length l.
Proof. revert i. induction l; intros [|i]; cbn; auto. Qed.
Lemma list_set_nth {A} (l : list A) i v n :
  nth_error (list_set l i v) n = if Nat.eqb n i && Nat.ltb i (length l) then Some v else nth_error l n.
Proof.
  revert i n. induction l as [|x l IH]; intros i n; cbn.
  - rewrite andb_false_r. auto.
  - destruct i, n; cbn; auto.
    rewrite IH. destruct (Nat.eqb n i); cbn; auto.
Qed.

Lemma NoDup_app_intro {A} (l1 l2 : list A) : NoDup l1 -> NoDup l2 ->
  (forall x, In x l1 -> In x l2 -> False) -> NoDup (l1 ++ l2).
Proof.
  induction l1 as [|x l1 IH]; cbn; auto. intros H1 H2 H. inversion H1; subst. constructor.
  - intro I. apply in_app_or in I as [I|I]; eauto.
  - apply IH; auto. intros y ? ?. apply (H y); auto.
Qed.

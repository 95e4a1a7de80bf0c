(** Lemmas about PyStr. *)
From Verif Require Import Base PyStr.
Open Scope string_scope.

Definition free (c : ascii) (s : string) : Prop := ~ In c (list_ascii_of_string s).

Lemma chars_app a b : list_ascii_of_string (a ++ b) = (list_ascii_of_string a ++ list_ascii_of_string b)%list.
Proof. induction a; cbn; congruence. Qed.
Lemma free_app c a b : free c (a ++ b) <-> free c a /\ free c b.
Proof. unfold free. rewrite chars_app, in_app_iff. tauto. Qed.
Lemma free_cons c d s : free c (String d s) <-> c <> d /\ free c s.
Proof. unfold free. cbn. intuition congruence. Qed.
Lemma free_nil c : free c "".
Proof. intros []. Qed.
Lemma app_nil_s s : s ++ "" = s.
Proof. induction s; cbn; congruence. Qed.
Lemma app_assoc_s a b c : (a ++ b) ++ c = a ++ (b ++ c).
Proof. induction a; cbn; congruence. Qed.
Lemma length_app_s a b : String.length (a ++ b) = (String.length a + String.length b)%nat.
Proof. induction a; cbn; congruence. Qed.

Lemma strip_prefix_app p r : strip_prefix p (p ++ r) = Some r.
Proof. induction p; cbn; auto. rewrite Ascii.eqb_refl. auto. Qed.
Lemma strip_prefix_some p s r : strip_prefix p s = Some r -> s = p ++ r.
Proof.
  revert s. induction p; cbn; intros s H; [congruence|]. destruct s; [discriminate|].
  destruct (Ascii.eqb_spec a a0); [|discriminate]. subst. f_equal. auto.
Qed.

(** Characters other than the separator's first are skipped. *)
Lemma cut_skip c sep a s : free c a ->
  cut (String c sep) (a ++ s) =
  match cut (String c sep) s with Some (u, v) => Some (a ++ u, v) | None => None end.
Proof.
  induction a as [|d a IH]; intros F.
  - cbn [append]. destruct (cut (String c sep) s) as [[u v]|]; reflexivity.
  - apply free_cons in F as [N F]. cbn [append cut strip_prefix].
    destruct (Ascii.eqb_spec c d); [contradiction|]. rewrite IH by auto.
    destruct (cut (String c sep) s) as [[u v]|]; reflexivity.
Qed.
Lemma cut_here c sep r : cut (String c sep) (String c sep ++ r) = Some ("", r).
Proof.
  change (String c sep ++ r) with (String c (sep ++ r)). cbn [cut strip_prefix].
  rewrite Ascii.eqb_refl, strip_prefix_app. reflexivity.
Qed.
Lemma cut_first c sep a r : free c a -> cut (String c sep) (a ++ String c sep ++ r) = Some (a, r).
Proof. intros F. rewrite cut_skip by auto. rewrite cut_here, app_nil_s. reflexivity. Qed.
Lemma cut_none c sep a : free c a -> cut (String c sep) a = None.
Proof.
  intros F. rewrite <- (app_nil_s a), cut_skip by auto. reflexivity.
Qed.
Lemma cut_some sep s a b : cut sep s = Some (a, b) -> s = a ++ sep ++ b.
Proof.
  revert a b. induction s as [|c s IH]; intros a b; cbn [cut].
  - destruct (strip_prefix sep "") eqn:E; [|discriminate]. intros H. injection H as <- <-.
    apply strip_prefix_some in E. exact E.
  - destruct (strip_prefix sep (String c s)) eqn:E.
    + intros H. injection H as <- <-. apply strip_prefix_some in E. exact E.
    + destruct (cut sep s) as [[u v]|]; [|discriminate]. intros H. injection H as <- <-.
      cbn. f_equal. apply IH. reflexivity.
Qed.

Lemma cut_length c sep s a b : cut (String c sep) s = Some (a, b) -> (String.length b < String.length s)%nat.
Proof.
  intros H. apply cut_some in H. subst. rewrite !length_app_s. cbn. lia.
Qed.
Lemma split_fuel_enough c sep : forall n m s, (String.length s <= n)%nat -> (String.length s <= m)%nat ->
  split_fuel n (String c sep) s = split_fuel m (String c sep) s.
Proof.
  assert (N : forall n, split_fuel n (String c sep) "" = [""]) by (intros []; reflexivity).
  induction n; intros m s Hn Hm.
  - destruct s; [|cbn in Hn; lia]. rewrite !N. reflexivity.
  - destruct m; [destruct s; [apply N|cbn in Hm; lia]|].
    cbn [split_fuel]. destruct (cut (String c sep) s) as [[a b]|] eqn:E; auto.
    pose proof (cut_length _ _ _ _ _ E). f_equal. apply IHn; lia.
Qed.
Lemma split_cut c sep s : split (String c sep) s =
  match cut (String c sep) s with Some (a, b) => a :: split (String c sep) b | None => [s] end.
Proof.
  unfold split at 1. destruct s as [|d s].
  - reflexivity.
  - cbn [String.length split_fuel]. destruct (cut (String c sep) (String d s)) as [[a b]|] eqn:E; auto.
    pose proof (cut_length _ _ _ _ _ E) as L. cbn [String.length] in L. f_equal. apply split_fuel_enough; lia.
Qed.
Lemma split_first c sep a r : free c a -> split (String c sep) (a ++ String c sep ++ r) = a :: split (String c sep) r.
Proof. intros F. rewrite split_cut, cut_first by auto. reflexivity. Qed.
Lemma split_none c sep a : free c a -> split (String c sep) a = [a].
Proof. intros F. rewrite split_cut, cut_none by auto. reflexivity. Qed.

Lemma join_cons sep a b l : join sep (a :: b :: l) = a ++ sep ++ join sep (b :: l).
Proof. reflexivity. Qed.
Lemma split_join c sep l : l <> [] -> (forall s, In s l -> free c s) ->
  split (String c sep) (join (String c sep) l) = l.
Proof.
  induction l as [|a [|b l] IH]; intros N F; [congruence| |].
  - cbn [join String.concat]. apply split_none. apply F. left; auto.
  - rewrite join_cons, split_first by (apply F; left; auto). f_equal. apply IH; [discriminate|].
    intros s Hs. apply F. right; auto.
Qed.
Lemma free_join c sep l : free c sep -> (forall s, In s l -> free c s) -> free c (join sep l).
Proof.
  intros Fs. induction l as [|a [|b l] IH]; intros F.
  - apply free_nil.
  - apply F. left; auto.
  - rewrite join_cons, !free_app. split; [apply F; left; auto|]. split; auto. apply IH.
    intros s Hs. apply F. right; auto.
Qed.
(** A separator of two characters as one of one character. *)
Lemma join_shift c d l a : join (String c (String d "")) (a :: l) = join (String c "") (a :: map (String d) l).
Proof.
  revert a. induction l as [|b l IH]; intros a; [reflexivity|].
  rewrite join_cons, IH. cbn [map]. rewrite join_cons. f_equal. cbn [append].
  do 2 f_equal. destruct l; reflexivity.
Qed.

(** Proofs about the names of data columns (C63). *)
From Verif Require Import Base Geo Cell PyStr StrLib Names NamesSpec.
Open Scope string_scope.

Lemma standard_spec n : reflect (positional n) (standard n).
Proof.
  unfold standard, positional. destruct (String.eqb_spec n "lat"), (String.eqb_spec n "long"), (String.eqb_spec n "time"); constructor; tauto.
Qed.
Section Tables.
  Context {V : Type}.
  Implicit Types t : table V.
  Lemma named_iff l t : named l t <-> data_names t = l.
  Proof.
    split.
    - induction 1; [reflexivity| |]; unfold data_names in *; cbn; destruct (standard_spec n); try contradiction; cbn; congruence.
    - revert l. induction t as [|[n c] t IH]; intros l <-; [constructor|]. unfold data_names. cbn. destruct (standard_spec n); cbn; constructor; auto; apply IH; reflexivity.
  Qed.
  Lemma get_name_ok t n : get_name_df t = Ok n <-> named [n] t.
  Proof.
    rewrite named_iff. unfold get_name_df, only_name. destruct (data_names t) as [|a [|b l]]; split; intros H; try discriminate; congruence.
  Qed.
  Lemma get_name_err t : (forall n, ~ named [n] t) -> get_name_df t = Err ValueError.
  Proof.
    intros H. unfold get_name_df, only_name. destruct (data_names t) as [|a [|b l]] eqn:E; try reflexivity. exfalso. apply (H a). apply named_iff. exact E.
  Qed.

  (** Renaming by a dictionary that has the data columns' names as keys. *)
  Lemma rename_by (d : list (string * string)) t : forall olds news, data_names t = olds -> List.length olds = List.length news ->
    (forall k o n, nth_error olds k = Some o -> nth_error news k = Some n -> sget d o = Some n) ->
    (forall n, positional n -> sget d n = None) -> renamed news t (rename d t).
  Proof.
    induction t as [|[n c] t IH]; intros olds news E L H P; unfold data_names in E; cbn in E.
    - subst olds. destruct news; [constructor|discriminate].
    - cbn [rename map fst snd]. destruct (standard_spec n) as [Sp|Sp]; cbn in E.
      + rewrite P by exact Sp. apply rn_keep; [exact Sp|]. eapply IH; eauto.
      + subst olds. destruct news as [|m news]; [discriminate|]. rewrite (H 0%nat n m eq_refl eq_refl). apply rn_new; [exact Sp|]. eapply IH; [reflexivity|injection L; auto| |exact P].
        intros k o x. apply (H (S k)).
  Qed.
  Lemma sget_app (a b : list (string * string)) n : sget (a ++ b)%list n = match sget a n with Some v => Some v | None => sget b n end.
  Proof. unfold sget. induction a as [|[k v] a IH]; [reflexivity|]. cbn. destruct (String.eqb n k); [reflexivity|exact IH]. Qed.
  Lemma name_dict_none olds : forall news n, ~ In n olds -> sget (name_dict olds news) n = None.
  Proof.
    induction olds as [|o olds IH]; intros [|m news] n H; try reflexivity. cbn [name_dict]. rewrite sget_app, IH by (intros I; apply H; right; exact I).
    cbn. destruct (String.eqb_spec n o); [exfalso; apply H; left; auto|reflexivity].
  Qed.
  Lemma name_dict_nth olds : forall news k o n, NoDup olds -> nth_error olds k = Some o -> nth_error news k = Some n -> sget (name_dict olds news) o = Some n.
  Proof.
    induction olds as [|o' olds IH]; intros [|m news] k o n D Ho Hn; destruct k; try discriminate; cbn [name_dict]; rewrite sget_app; inversion D; subst.
    - injection Ho as <-. injection Hn as <-. rewrite name_dict_none by assumption. cbn. rewrite String.eqb_refl. reflexivity.
    - cbn in Ho, Hn. rewrite (IH news k o n) by assumption. reflexivity.
  Qed.
  Lemma data_not_positional l t n : named l t -> In n l -> ~ positional n.
  Proof. induction 1; intros I; [destruct I|auto|]. destruct I as [<-|I]; auto. Qed.

  Lemma set_name_ok t n new : named [n] t -> exists t', set_name_df new t = Ok t' /\ renamed [new] t t'.
  Proof.
    intros N. exists (rename [(n, new)] t). split; [unfold set_name_df; rewrite (proj2 (get_name_ok t n) N); reflexivity|].
    eapply rename_by; [apply named_iff; exact N|reflexivity| |].
    - intros [|[|k]] o m Ho Hm; try discriminate. injection Ho as <-. injection Hm as <-. cbn. rewrite String.eqb_refl. reflexivity.
    - intros x P. cbn. destruct (String.eqb_spec x n) as [->|]; [|reflexivity]. exfalso. eapply data_not_positional; eauto. left. reflexivity.
  Qed.
  Lemma split_names l t : named l t -> l <> [] -> (forall n, In n l -> no_comma n) -> split "," (get_names_df t) = l.
  Proof. intros N E C. unfold get_names_df. apply named_iff in N. rewrite N. apply split_join; assumption. Qed.
  Lemma set_names_ok l t news : named l t -> l <> [] -> NoDup l -> (forall n, In n l -> no_comma n) ->
    (List.length news = List.length l -> exists t', set_names_df news t = Ok t' /\ renamed news t t') /\
    (List.length news <> List.length l -> set_names_df news t = Err AssertionError).
  Proof.
    intros N E D C. unfold set_names_df. rewrite (split_names l t N E C). split; intros L.
    - rewrite L, Nat.eqb_refl. eexists. split; [reflexivity|]. eapply rename_by; [apply named_iff; exact N|auto| |].
      + intros k o n Ho Hn. eapply name_dict_nth; eauto.
      + intros n P. apply name_dict_none. intros I. eapply data_not_positional; eauto.
    - destruct (Nat.eqb_spec (List.length l) (List.length news)); [congruence|reflexivity].
  Qed.

  (** Datasets *)
  Lemma repeats_spec l : repeats l = false <-> NoDup l.
  Proof.
    induction l as [|n l IH]; [split; [constructor|reflexivity]|]. cbn. rewrite orb_false_iff, IH. split.
    - intros [A B]. constructor; [|exact B]. intros I. assert (X : existsb (String.eqb n) l = true) by (apply existsb_exists; exists n; split; [exact I|apply String.eqb_refl]). congruence.
    - intros D. inversion D; subst. split; [|assumption]. destruct (existsb (String.eqb n) l) eqn:X; [|reflexivity]. exfalso. apply existsb_exists in X as (m & I & Em). apply String.eqb_eq in Em. subst m. contradiction.
  Qed.
  Lemma NoDup_app_one (l : list string) x : NoDup l -> ~ In x l -> NoDup (l ++ [x])%list.
  Proof.
    induction 1 as [|y l Y D IH]; intros H; cbn; constructor; try (intros []); try constructor.
    - intros I. apply in_app_iff in I as [I|[->|[]]]; [exact (Y I)|apply H; left; reflexivity].
    - apply IH. intros I. apply H. right. exact I.
  Qed.
  Lemma set_name_xr_ok n c new coords : NoDup (coords ++ [n])%list ->
    set_name_xr new coords [(n, c) : string * V] = if existsb (String.eqb new) coords then Err ValueError else Ok [(new, c)].
  Proof.
    intros D. assert (Nc : ~ In n coords) by (apply NoDup_remove in D; rewrite app_nil_r in D; apply D).
    assert (Dc : NoDup coords) by (apply NoDup_remove_1 in D; rewrite app_nil_r in D; exact D).
    unfold set_name_xr, get_name_xr, rename_xr. cbn [map fst only_name bind forallb].
    assert (E1 : existsb (String.eqb n) (coords ++ [n])%list = true) by (apply existsb_exists; exists n; split; [apply in_or_app; right; left; reflexivity|apply String.eqb_refl]).
    rewrite E1. cbn [andb negb]. rewrite map_app. cbn [map].
    assert (E2 : map (fun x => match sget [(n, new)] x with Some m => m | None => x end) coords = coords).
    { rewrite <- (map_id coords) at 2. apply map_ext_in. intros x X. cbn. destruct (String.eqb_spec x n) as [->|]; [contradiction|reflexivity]. }
    assert (E4 : sget [(n, new)] n = Some new) by (cbn; rewrite String.eqb_refl; reflexivity).
    rewrite E2, E4. cbn [rename map fst snd]. unfold rename. cbn [map fst snd]. rewrite E4.
    destruct (existsb (String.eqb new) coords) eqn:X.
    - apply existsb_exists in X as (m & I & Em). apply String.eqb_eq in Em. subst m. destruct (repeats (coords ++ [new])%list) eqn:R; [reflexivity|].
      apply repeats_spec in R. apply NoDup_remove in R. rewrite app_nil_r in R. destruct R. contradiction.
    - assert (R : repeats (coords ++ [new])%list = false); [|rewrite R; reflexivity]. apply repeats_spec. apply NoDup_app_one; [exact Dc|].
      intros I. assert (Y : existsb (String.eqb new) coords = true) by (apply existsb_exists; exists new; split; [exact I|apply String.eqb_refl]). congruence.
  Qed.
End Tables.

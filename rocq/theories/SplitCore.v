(** The combinatorial core of splitting: given how contact with a cell relates to
    contact with its quarters, rewriting the neighbour lists in the way both
    split_and_replace functions do keeps them exact. *)
From Verif Require Import Base Geo Graph Spec QLib CaseProofs SplitGeo Dict Rep.
Open Scope Z_scope.

Lemma In_dirs_code d : In d dirs <-> exists dd, d = code dd.
Proof.
  split.
  - intros H. cbn in H.
    destruct H as [<-|[<-|[<-|[<-|[<-|[<-|[<-|[<-|[]]]]]]]]].
    + exists dNE; auto. + exists dE; auto. + exists dSE; auto. + exists dS; auto.
    + exists dSW; auto. + exists dW; auto. + exists dNW; auto. + exists dN; auto.
  - intros (dd & ->). destruct dd; cbn; tauto.
Qed.

(** The neighbour lists [f] are exactly the contacts between the cells in [L]. *)
Definition exact_for (L : Z -> Prop) (case : Z -> Z -> Z) (f : Z -> Z -> list Z) : Prop :=
  forall i d, L i -> In d dirs ->
    NoDup (f i d) /\ forall j, In j (f i d) <-> L j /\ case i j = d.

Definition quad_eq_dec (a b : quad) : {a = b} + {a <> b}.
Proof. decide equality. Defined.

(** The two quarters on a side, in the order in which they are appended. *)
Definition side_pair_ok (pair : compass -> quad * quad) : Prop :=
  (pair dN = (qNW, qNE) \/ pair dN = (qNE, qNW)) /\
  (pair dS = (qSW, qSE) \/ pair dS = (qSE, qSW)) /\
  (pair dE = (qNE, qSE) \/ pair dE = (qSE, qNE)) /\
  (pair dW = (qNW, qSW) \/ pair dW = (qSW, qNW)).

(** The sibling of quarter [q] in direction [d]. *)
Definition sib_at (q : quad) (d : compass) : option quad :=
  match q, d with
  | qNW, dE => Some qNE | qNW, dSE => Some qSE | qNW, dS => Some qSW
  | qNE, dW => Some qNW | qNE, dSW => Some qSW | qNE, dS => Some qSE
  | qSW, dN => Some qNW | qSW, dNE => Some qNE | qSW, dE => Some qSE
  | qSE, dW => Some qSW | qSE, dNW => Some qNW | qSE, dN => Some qNE
  | _, _ => None
  end.

Definition dir_of (d : Z) : option compass :=
  match d with
  | 1 => Some dNE | 2 => Some dE | 3 => Some dSE | 4 => Some dS
  | -1 => Some dSW | -2 => Some dW | -3 => Some dNW | -4 => Some dN
  | _ => None
  end.
Lemma dir_of_code d : dir_of (code d) = Some d.
Proof. destruct d; reflexivity. Qed.
Lemma dir_of_some z d : dir_of z = Some d -> z = code d.
Proof.
  unfold dir_of. destruct z as [|p|p]; try discriminate;
  repeat (destruct p as [p|p|]; try discriminate); intro E; injection E as <-; reflexivity.
Qed.

Lemma NoDup_opt (b : bool) (x : Z) : NoDup (if b then [x] else []).
Proof. destruct b; repeat constructor; cbn; tauto. Qed.

Section Core.
Variable case : Z -> Z -> Z.
Variable c : Z.
Variable kid : quad -> Z.
Variable pair : compass -> quad * quad.
Variable f : Z -> Z -> list Z.

(** Neighbour lists of the new cell [kid q]. *)
Definition kid_list (q : quad) (d : compass) : list Z :=
  match sib_at q d with
  | Some q' => [kid q']
  | None =>
      match up q d with
      | Some s => if is_corner s then f c (code s)
                  else filter (fun j => case (kid q) j =? code d) (f c (code s))
      | None => []
      end
  end.

(** Neighbour lists of an old cell [i] that touched [c]: [s] is where [i] lies
    as seen from [c]. *)
Definition old_list (i : Z) (d : Z) : list Z :=
  match dir_of (case c i) with
  | None => f i d
  | Some s =>
      if is_corner s then
        if d =? - code s
        then match s with dNW => [kid qNW] | dNE => [kid qNE] | dSW => [kid qSW] | _ => [kid qSE] end
        else f i d
      else
        (if d =? - code s then rem c (f i d) else f i d)
        ++ (if case i (kid (fst (pair s))) =? d then [kid (fst (pair s))] else [])
        ++ (if case i (kid (snd (pair s))) =? d then [kid (snd (pair s))] else [])
  end.

Definition final (i d : Z) : list Z :=
  match dir_of d with
  | None => []
  | Some dd =>
      if i =? kid qNW then kid_list qNW dd
      else if i =? kid qNE then kid_list qNE dd
      else if i =? kid qSW then kid_list qSW dd
      else if i =? kid qSE then kid_list qSE dd
      else old_list i d
  end.

Variable L : Z -> Prop.
Definition new_live (i : Z) : Prop := (L i /\ i <> c) \/ exists q, i = kid q.
Definition all_live (i : Z) : Prop := L i \/ exists q, i = kid q.

Hypothesis pairH : side_pair_ok pair.
Hypothesis Lc : L c.
Hypothesis kid_new : forall q, ~ L (kid q).
Hypothesis kid_inj : forall q q', kid q = kid q' -> q = q'.
Hypothesis range : forall i j, case i j = 0 \/ exists d, case i j = code d.
Hypothesis anti : forall i j, all_live i -> all_live j -> case j i = - case i j.
Hypothesis irr : forall i, all_live i -> case i i = 0.
Hypothesis upH : forall q j d, L j -> j <> c -> case (kid q) j = code d ->
  exists d', up q d = Some d' /\ case c j = code d'.
Hypothesis cornH : forall q j, L j -> j <> c -> case c j = code (corner_of q) ->
  case (kid q) j = code (corner_of q).
Hypothesis sibH : forall q q' d, sibling q q' = Some d -> case (kid q) (kid q') = code d.
Hypothesis uniq : forall i j k d, L i -> L j -> L k -> is_corner d = true ->
  case i j = code d -> case i k = code d -> j = k.
Hypothesis Hf : exact_for L case f.

Lemma L_all i : L i -> all_live i. Proof. left; auto. Qed.
Lemma kid_all q : all_live (kid q). Proof. right; eauto. Qed.
Lemma kid_neq q i : L i -> i <> kid q.
Proof. intros H ->. exact (kid_new _ H). Qed.

Lemma kid_eqb q q' : (kid q =? kid q') = if quad_eq_dec q q' then true else false.
Proof.
  destruct (Z.eqb_spec (kid q) (kid q')), (quad_eq_dec q q'); auto; try congruence.
  apply kid_inj in e. congruence.
Qed.
Lemma final_kid q d : final (kid q) (code d) = kid_list q d.
Proof. unfold final. rewrite dir_of_code, !kid_eqb. destruct q; reflexivity. Qed.
Lemma final_old i d : L i -> In d dirs -> final i d = old_list i d.
Proof.
  intros H Hd. apply In_dirs_code in Hd as (dd & ->). unfold final. rewrite dir_of_code.
  repeat match goal with |- context [i =? ?b] =>
    let E := fresh in destruct (Z.eqb_spec i b) as [E|?]; [exfalso; exact (kid_neq _ _ H E)|] end. auto.
Qed.

Lemma f_In i d j : L i -> In j (f i (code d)) <-> L j /\ case i j = code d.
Proof. intros H. apply Hf; auto. apply In_dirs_code; eauto. Qed.
Lemma f_NoDup i d : L i -> NoDup (f i (code d)).
Proof. intros H. apply Hf; auto. apply In_dirs_code; eauto. Qed.

Lemma kid_list_NoDup q d : NoDup (kid_list q d).
Proof.
  unfold kid_list. destruct (sib_at q d); [repeat constructor; auto|].
  destruct (up q d) as [s|]; [|constructor].
  destruct (is_corner s); [|apply NoDup_filter]; apply f_NoDup; auto.
Qed.

Lemma sib_at_spec q d q' : sib_at q d = Some q' <-> sibling q q' = Some d.
Proof. destruct q, d, q'; cbn; split; congruence. Qed.

Lemma up_corner q d s : up q d = Some s -> is_corner s = true -> d = corner_of q /\ s = corner_of q.
Proof. destruct q, d; cbn; intros H; try discriminate; injection H as <-; intros; try discriminate; auto. Qed.

Lemma kid_case_live q d j : new_live j -> case (kid q) j = code d -> In j (kid_list q d).
Proof.
  intros [[Hj Nj]|[q' ->]] E.
  - destruct (upH q j d Hj Nj E) as (s & U & Es).
    unfold kid_list.
    assert (sib_at q d = None) as ->.
    { destruct q, d; cbn in U |- *; congruence. }
    rewrite U. destruct (is_corner s) eqn:Cs.
    + apply f_In; auto.
    + apply filter_In. split; [apply f_In; auto|]. apply Z.eqb_eq; auto.
  - destruct (quad_eq_dec q q') as [->|N].
    + rewrite irr in E by apply kid_all. symmetry in E. destruct (code_nonzero _ E).
    + assert (exists d', sibling q q' = Some d') as (d' & S).
      { destruct q, q'; cbn; eauto; congruence. }
      rewrite (sibH _ _ _ S) in E. apply code_inj in E. subst d'.
      unfold kid_list. apply sib_at_spec in S. rewrite S. left; auto.
Qed.

Lemma kid_list_sound q d j : In j (kid_list q d) -> new_live j /\ case (kid q) j = code d.
Proof.
  unfold kid_list. destruct (sib_at q d) as [q'|] eqn:S.
  - intros [<-|[]]. split; [right; eauto|]. apply sib_at_spec in S. auto.
  - destruct (up q d) as [s|] eqn:U; [|intros []].
    assert (Nc : forall j, case c j = code s -> j <> c).
    { intros k E ->. rewrite irr in E by (apply L_all; auto). symmetry in E. destruct (code_nonzero _ E). }
    destruct (is_corner s) eqn:Cs.
    + destruct (up_corner _ _ _ U Cs) as [-> ->]. intros H. apply f_In in H as [Hj E]; auto.
      split; [left; auto|]. apply cornH; auto.
    + intros H. apply filter_In in H as [H E]. apply Z.eqb_eq in E.
      apply f_In in H as [Hj E']; auto. split; [left; auto|]. auto.
Qed.

(** Contact of an old cell with a quarter, seen from the old cell. *)
Lemma old_kid i q d : L i -> i <> c -> case i (kid q) = code d ->
  exists s, up q (opposite d) = Some s /\ case c i = code s.
Proof.
  intros Hi Ni E. apply upH; auto. rewrite code_opposite.
  rewrite (anti i (kid q)), E; auto using L_all, kid_all.
Qed.

Lemma old_list_exact i d : L i -> i <> c -> In d dirs ->
  NoDup (old_list i d) /\ forall j, In j (old_list i d) <-> new_live j /\ case i j = d.
Proof.
  intros Hi Ni Hd.
  pose proof (Hf i d Hi Hd) as [Nf If].
  assert (NK : forall q, ~ In (kid q) (f i d)).
  { intros q H. apply If in H as [H _]. exact (kid_new _ H). }
  assert (Eci : case i c = - case c i) by (apply anti; auto using L_all).
  unfold old_list. destruct (range c i) as [E0|[s Es]].
  - (* no contact with c *)
    rewrite E0. cbn [dir_of]. split; auto. intros j. rewrite If. split.
    + intros [Hj Ej]. split; auto. left; split; auto. intros ->.
      rewrite Eci, E0 in Ej. apply In_dirs_code in Hd as (dd & ->). destruct dd; discriminate.
    + intros [[[Hj Nj]|[q ->]] Ej]; auto.
      apply In_dirs_code in Hd as (dd & ->).
      destruct (old_kid i q dd Hi Ni Ej) as (s & _ & Es). rewrite E0 in Es.
      symmetry in Es. destruct (code_nonzero _ Es).
  - rewrite Es, dir_of_code. apply In_dirs_code in Hd as (dd & ->).
    destruct (is_corner s) eqn:Cs.
    + (* corner contact *)
      assert (exists q, s = corner_of q /\
        match s with dNW => [kid qNW] | dNE => [kid qNE] | dSW => [kid qSW] | _ => [kid qSE] end = [kid q]) as (q & Sq & ->).
      { destruct s; try discriminate; [exists qNE|exists qSE|exists qSW|exists qNW]; auto. }
      subst s.
      assert (Eiq : case i (kid q) = - code (corner_of q)).
      { rewrite (anti (kid q) i) by auto using L_all, kid_all. f_equal. apply cornH; auto. }
      assert (Other : forall q' d', case i (kid q') = code d' -> q' = q /\ d' = opposite (corner_of q)).
      { intros q' d' H. destruct (old_kid i q' d' Hi Ni H) as (s & U & E).
        rewrite Es in E. apply code_inj in E. subst s.
        destruct (up_corner _ _ _ U Cs) as [E1 E2].
        assert (q = q') by (destruct q, q'; cbn in E2; congruence). subst q'. split; auto.
        rewrite <- E1, opposite_involutive. auto. }
      destruct (Z.eqb_spec (code dd) (- code (corner_of q))) as [Ed|Nd].
      * split; [repeat constructor; auto|]. intros j. split.
        -- intros [<-|[]]. split; [right; eauto|]. rewrite Eiq. auto.
        -- intros [[[Hj Nj]|[q' ->]] Ej].
           ++ exfalso. apply Nj. apply (uniq i j c dd); auto.
              { rewrite <- code_opposite in Ed. apply code_inj in Ed. subst dd. destruct q; auto. }
              { rewrite Eci, Es. auto. }
           ++ left. f_equal. symmetry. eapply Other; eauto.
      * split; auto. intros j. rewrite If. split.
        -- intros [Hj Ej]. split; auto. left; split; auto. intros ->. apply Nd.
           rewrite <- Ej, Eci, Es. auto.
        -- intros [[[Hj Nj]|[q' ->]] Ej]; auto. exfalso. apply Nd.
           destruct (Other _ _ Ej) as [-> ->]. apply code_opposite.
    + (* side contact *)
      destruct (pair s) as [a b] eqn:Ep. cbn [fst snd].
      assert (Nab : a <> b).
      { destruct pairH as (P1&P2&P3&P4); destruct s; try discriminate; rewrite Ep in *;
        repeat match goal with H : _ \/ _ |- _ => destruct H end; congruence. }
      assert (Kab : forall q d', case i (kid q) = code d' -> q = a \/ q = b).
      { intros q d' H. destruct (old_kid i q d' Hi Ni H) as (s' & U & E).
        rewrite Es in E. apply code_inj in E. subst s'.
        destruct pairH as (P1&P2&P3&P4).
        destruct s; try discriminate; rewrite Ep in *;
        [destruct P3 as [P|P] | destruct P2 as [P|P] | destruct P4 as [P|P] | destruct P1 as [P|P]];
        injection P as -> ->; destruct q; auto; destruct d'; cbn in U; discriminate. }
      assert (I1 : forall j, In j (if code dd =? - code s then rem c (f i (code dd)) else f i (code dd)) <->
                 (L j /\ j <> c) /\ case i j = code dd).
      { intros j. destruct (Z.eqb_spec (code dd) (- code s)) as [Ed|Nd].
        - rewrite rem_In, If. tauto.
        - rewrite If. split; [|tauto]. intros [Hj Ej]. repeat split; auto. intros ->. apply Nd.
          rewrite <- Ej, Eci, Es. auto. }
      assert (I2 : forall q j, In j (if case i (kid q) =? code dd then [kid q] else []) <-> j = kid q /\ case i j = code dd).
      { intros q j. destruct (Z.eqb_spec (case i (kid q)) (code dd)); cbn; split; try tauto.
        - intros [<-|[]]; auto.
        - intros [-> ?]; auto.
        - intros [-> ?]; congruence. }
      split.
      * apply NoDup_app_intro; [destruct (code dd =? - code s); auto using rem_NoDup| |].
        -- apply NoDup_app_intro.
           ++ apply NoDup_opt.
           ++ apply NoDup_opt.
           ++ intros x Hx Hx'. apply I2 in Hx as [-> _]. apply I2 in Hx' as [E _]. apply kid_inj in E. auto.
        -- intros x Hx Hx'. apply I1 in Hx as [[Hx _] _].
           apply in_app_or in Hx' as [H|H]; apply I2 in H as [-> _]; eapply kid_new; eauto.
      * intros j. rewrite !in_app_iff, I1, !I2. unfold new_live. split.
        -- intros [H|[[-> H]|[-> H]]]; split; eauto; tauto.
        -- intros [[H|[q ->]] E]; auto. destruct (Kab _ _ E) as [-> | ->]; auto.
Qed.

Theorem final_exact : exact_for new_live case final.
Proof.
  intros i d [[Hi Ni]|[q ->]] Hd.
  - rewrite final_old by auto. apply old_list_exact; auto.
  - apply In_dirs_code in Hd as (dd & ->). rewrite final_kid. split.
    + apply kid_list_NoDup.
    + intros j. split; [apply kid_list_sound | intros [? ?]; apply kid_case_live; auto].
Qed.

(** Locality: cells that did not touch [c] keep their lists. *)
Lemma final_local i d : L i -> In d dirs -> case c i = 0 -> final i d = f i d.
Proof. intros Hi Hd E. rewrite final_old by auto. unfold old_list. rewrite E. reflexivity. Qed.
End Core.

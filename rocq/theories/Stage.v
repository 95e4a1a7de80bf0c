(** Stages of a split: the graph after the neighbours on some of the eight sides
    and corners have been rewritten.  Shared by MeshBuilder.split_and_replace
    (int keys) and EnvironmentMesh.split_and_replace (string keys). *)
From Verif Require Import Base Geo Graph Spec QLib CaseProofs SplitGeo Dict Rep SplitCore.
Open Scope Z_scope.

Lemma compass_eqb_code d d' : (code d =? code d') = true <-> d = d'.
Proof. rewrite Z.eqb_eq. split; [apply code_inj | congruence]. Qed.

Section Stage.
Variable K : Z -> pykey.
Hypothesis K_inj : forall a b, K a = K b -> a = b.
Hypothesis one : forall g L f c d i, rep K g L f -> L i -> In d dirs ->
  NoDup (f i (- d)) -> In c (f i (- d)) ->
  exists g', remove_from_one (K c) d g i = Ok g' /\ rep K g' L (upd f i (- d) (rem c (f i (- d)))).

(** ** Appending the two new cells of a side to every neighbour on that side *)
Definition add_case (case : Z -> Z -> Z) (g : graph) (i x : Z) : res graph :=
  if negb (case i x =? 0) then add_neighbour g (K i) (K (case i x)) x else Ok g.
Definition add_two (case : Z -> Z -> Z) (a b : Z) (g : graph) (i : Z) : res graph :=
  g <- add_case case g i a ;; add_case case g i b.

Definition app_case (case : Z -> Z -> Z) (h : Z -> Z -> list Z) (i x : Z) : Z -> Z -> list Z :=
  fun i' d => if i' =? i then h i' d ++ (if case i x =? d then [x] else []) else h i' d.

Section Case.
Variable case : Z -> Z -> Z.
Hypothesis range : forall i j, case i j = 0 \/ exists d, case i j = code d.

Lemma add_case_rep g M h i x : rep K g M h -> M i ->
  exists g', add_case case g i x = Ok g' /\ rep K g' M (app_case case h i x).
Proof.
  intros R Hi. unfold add_case. destruct (range i x) as [E|[d E]].
  - rewrite E. cbn. exists g. split; auto. eapply rep_same; [|exact R].
    intros j d _ Hd. unfold app_case. destruct (Z.eqb_spec j i); auto. rewrite E.
    destruct (Z.eqb_spec 0 d); [|rewrite app_nil_r; auto].
    subst. cbn in Hd. intuition lia.
  - rewrite E. destruct (Z.eqb_spec (code d) 0) as [E0|_]; [destruct (code_nonzero _ E0)|]. cbn [negb].
    destruct (rep_add K K_inj g M h i (code d) x R Hi) as (g' & Eg & R').
    { apply In_dirs_code; eauto. }
    exists g'. split; auto. eapply rep_same; [|exact R'].
    intros j d' _ Hd'. unfold upd, app_case. rewrite E.
    destruct (Z.eqb_spec j i), (Z.eqb_spec d' (code d)), (Z.eqb_spec (code d) d'); subst; cbn; auto; try congruence.
    rewrite app_nil_r; auto.
Qed.

Definition add_all (h : Z -> Z -> list Z) (l : list Z) (a b : Z) : Z -> Z -> list Z :=
  fun i d => if existsb (Z.eqb i) l
             then h i d ++ (if case i a =? d then [a] else []) ++ (if case i b =? d then [b] else [])
             else h i d.

Lemma add_loop g M h l a b : rep K g M h -> NoDup l -> (forall i, In i l -> M i) ->
  exists g', foldM (add_two case a b) g l = Ok g' /\ rep K g' M (add_all h l a b).
Proof.
  intros R N H.
  apply (foldM_inv (fun pre g => rep K g M (add_all h pre a b))).
  - eapply rep_same; [|exact R]. auto.
  - intros pre x post s El Rs. subst l.
    assert (Mx : M x) by (apply H; apply in_or_app; cbn; auto).
    assert (Nin : existsb (Z.eqb x) pre = false).
    { destruct (existsb (Z.eqb x) pre) eqn:E; auto. apply existsb_In in E.
      exfalso. apply NoDup_remove_2 in N. apply N. apply in_or_app; auto. }
    destruct (add_case_rep _ _ _ x a Rs Mx) as (g1 & E1 & R1).
    destruct (add_case_rep _ _ _ x b R1 Mx) as (g2 & E2 & R2).
    exists g2. split.
    + unfold add_two. rewrite E1. cbn. auto.
    + eapply rep_same; [|exact R2]. intros i d _ _.
      unfold app_case, add_all. rewrite existsb_app_one.
      destruct (Z.eqb_spec i x); subst; rewrite ?Nin, ?orb_false_r; cbn; rewrite <- ?app_assoc; auto.
Qed.
End Case.

(** ** Stages *)
Section Split.
Variable case : Z -> Z -> Z.
Variable c : Z.
Variable kid : quad -> Z.
Variable pair : compass -> quad * quad.
Variable f : Z -> Z -> list Z.
Variable L : Z -> Prop.
Hypothesis pairH : side_pair_ok pair.
Hypothesis Lc : L c.
Hypothesis kid_new : forall q, ~ L (kid q).
Hypothesis kid_inj : forall q q', kid q = kid q' -> q = q'.
Hypothesis range : forall i j, case i j = 0 \/ exists d, case i j = code d.
Hypothesis anti : forall i j, all_live kid L i -> all_live kid L j -> case j i = - case i j.
Hypothesis irr : forall i, all_live kid L i -> case i i = 0.
Hypothesis uniq : forall i j k d, L i -> L j -> L k -> is_corner d = true ->
  case i j = code d -> case i k = code d -> j = k.
Hypothesis Hf : exact_for L case f.

(** Neighbour lists when the sides and corners in [S] have been rewritten. *)
Definition stage (S : list compass) (i d : Z) : list Z :=
  match dir_of d with
  | None => []
  | Some dd =>
      if i =? kid qNW then kid_list case c kid f qNW dd
      else if i =? kid qNE then kid_list case c kid f qNE dd
      else if i =? kid qSW then kid_list case c kid f qSW dd
      else if i =? kid qSE then kid_list case c kid f qSE dd
      else if existsb (fun s => case c i =? code s) S then old_list case c kid pair f i d
      else f i d
  end.

Lemma stage_old S i d : L i -> In d dirs ->
  stage S i d = if existsb (fun s => case c i =? code s) S then old_list case c kid pair f i d else f i d.
Proof.
  intros H Hd. apply In_dirs_code in Hd as (dd & ->). unfold stage. rewrite dir_of_code.
  repeat match goal with |- context [i =? ?b] =>
    let E := fresh in destruct (Z.eqb_spec i b) as [E|?]; [exfalso; exact (kid_neq kid L kid_new _ _ H E)|] end. auto.
Qed.
Lemma stage_kid S q d : stage S (kid q) (code d) = kid_list case c kid f q d.
Proof. unfold stage. rewrite dir_of_code, !(kid_eqb kid kid_inj). destruct q; reflexivity. Qed.
Lemma stage_c S d : In d dirs -> stage S c d = f c d.
Proof.
  intros Hd. rewrite stage_old by auto.
  replace (existsb _ S) with false; auto. symmetry. apply not_true_is_false. intro E.
  apply existsb_exists in E as (s & _ & E). apply Z.eqb_eq in E.
  rewrite irr in E by (left; auto). symmetry in E. destruct (code_nonzero _ E).
Qed.
Lemma stage_pending S s i d : L i -> In d dirs -> case c i = code s -> ~ In s S -> stage S i d = f i d.
Proof.
  intros Hi Hd E N. rewrite stage_old by auto.
  replace (existsb _ S) with false; auto. symmetry. apply not_true_is_false. intro H.
  apply existsb_exists in H as (s' & Hs & E'). apply Z.eqb_eq in E'. rewrite E in E'.
  apply code_inj in E'. subst. auto.
Qed.
(** Adding [s] to the stages only matters for the cells on side [s]. *)
Lemma stage_cons S s i d : L i -> In d dirs ->
  stage (s :: S) i d = if case c i =? code s then old_list case c kid pair f i d else stage S i d.
Proof.
  intros Hi Hd. rewrite !stage_old by auto. cbn [existsb].
  destruct (case c i =? code s); auto.
Qed.

Lemma f_c_In s i : In i (f c (code s)) <-> L i /\ case c i = code s.
Proof. apply Hf; auto. apply In_dirs_code; eauto. Qed.
Lemma f_c_NoDup s : NoDup (f c (code s)).
Proof. apply Hf; auto. apply In_dirs_code; eauto. Qed.
Lemma f_back s i : In i (f c (code s)) -> NoDup (f i (- code s)) /\ In c (f i (- code s)).
Proof.
  intros H. apply f_c_In in H as [Hi E].
  assert (D : In (- code s) dirs) by (apply In_dirs_opp, In_dirs_code; eauto).
  destruct (Hf i (- code s) Hi D) as [N I]. split; auto. apply I. split; auto.
  rewrite <- E. apply anti; left; auto.
Qed.

Lemma stage_remove g S s : rep K g (all_live kid L) (stage S) -> ~ In s S -> is_corner s = false ->
  exists g', foldM (remove_from_one (K c) (code s)) g (f c (code s)) = Ok g' /\
             rep K g' (all_live kid L) (remove_all (stage S) (f c (code s)) c (code s)).
Proof.
  intros R Ns Cs. apply remove_loop; auto.
  - apply In_dirs_code; eauto.
  - apply f_c_NoDup.
  - intros i Hi. pose proof Hi as Hi'. apply f_c_In in Hi' as [Li Ei].
    rewrite (stage_pending S s) by (auto; apply In_dirs_opp, In_dirs_code; eauto).
    split; [left; auto|]. apply f_back; auto.
Qed.

Lemma stage_add g S s : ~ In s S -> is_corner s = false ->
  rep K g (all_live kid L) (remove_all (stage S) (f c (code s)) c (code s)) ->
  exists g', foldM (add_two case (kid (fst (pair s))) (kid (snd (pair s)))) g (f c (code s)) = Ok g' /\
             rep K g' (all_live kid L) (stage (s :: S)).
Proof.
  intros Ns Cs R.
  destruct (add_loop case range g _ _ (f c (code s)) (kid (fst (pair s))) (kid (snd (pair s))) R) as (g' & E & R').
  - apply f_c_NoDup.
  - intros i H. apply f_c_In in H as [H _]. left; auto.
  - exists g'. split; auto. eapply rep_same; [|exact R'].
    intros i d [Hi|[q ->]] Hd.
    + rewrite stage_cons by auto. unfold add_all, remove_all.
      destruct (Z.eqb_spec (case c i) (code s)) as [Ei|Ni].
      * assert (existsb (Z.eqb i) (f c (code s)) = true) as -> by (apply existsb_In, f_c_In; auto).
        unfold old_list. rewrite Ei, dir_of_code, Cs. cbn [andb].
        rewrite (stage_pending S s) by auto. auto.
      * assert (existsb (Z.eqb i) (f c (code s)) = false) as ->.
        { apply not_true_is_false. rewrite existsb_In, f_c_In. tauto. }
        auto.
    + apply In_dirs_code in Hd as (dd & ->). rewrite stage_kid. unfold add_all, remove_all.
      assert (existsb (Z.eqb (kid q)) (f c (code s)) = false) as ->.
      { apply not_true_is_false. rewrite existsb_In, f_c_In. intros [H _]. eapply kid_new; eauto. }
      cbn. apply stage_kid.
Qed.

(** Rewriting one corner. *)
Definition corner_update (g : graph) (s : compass) (new : Z) : res graph :=
  l <- get_neighbours g (K c) (K (code s)) ;;
  match l with
  | [] => Ok g
  | x :: _ => update_neighbour g (K x) (K (- code s)) [new]
  end.

Lemma stage_corner g S q : rep K g (all_live kid L) (stage S) -> ~ In (corner_of q) S ->
  exists g', corner_update g (corner_of q) (kid q) = Ok g' /\ rep K g' (all_live kid L) (stage (corner_of q :: S)).
Proof.
  intros R Ns. unfold corner_update.
  assert (D : In (code (corner_of q)) dirs) by (apply In_dirs_code; eauto).
  rewrite (rep_get K _ _ _ _ _ R) by (auto; left; auto). cbn [bind].
  rewrite stage_c by auto.
  assert (Same : forall i d, all_live kid L i -> In d dirs -> ~ (L i /\ case c i = code (corner_of q)) ->
     stage S i d = stage (corner_of q :: S) i d).
  { intros i d [Hi|[q' ->]] Hd N.
    - rewrite stage_cons by auto. destruct (Z.eqb_spec (case c i) (code (corner_of q))); auto. tauto.
    - apply In_dirs_code in Hd as (dd & ->). rewrite !stage_kid. auto. }
  destruct (f c (code (corner_of q))) as [|x l] eqn:El.
  - exists g. split; auto. eapply rep_same; [|exact R].
    intros i d Hi Hd. apply Same; auto. rewrite <- f_c_In, El. auto.
  - assert (Hx : L x /\ case c x = code (corner_of q)) by (apply f_c_In; rewrite El; left; auto).
    destruct (rep_update K K_inj g _ _ x (- code (corner_of q)) [kid q] R) as (g' & E & R').
    + left; tauto.
    + apply In_dirs_opp; auto.
    + exists g'. split; auto. eapply rep_same; [|exact R'].
      intros i d Hi Hd. unfold upd.
      destruct (Z.eqb_spec i x) as [->|Nx].
      * destruct Hx as [Lx Ex]. rewrite stage_cons by auto. rewrite Ex, Z.eqb_refl.
        unfold old_list. rewrite Ex, dir_of_code.
        assert (is_corner (corner_of q) = true) as -> by (destruct q; auto).
        cbn [andb]. destruct (d =? - code (corner_of q)).
        -- destruct q; auto.
        -- apply (stage_pending S (corner_of q)); auto.
      * cbn [andb]. apply Same; auto. intros [Li Ei]. apply Nx.
        apply (uniq c i x (corner_of q)); auto; try tauto. destruct q; auto.
Qed.

(** All eight done: the cell can be dropped. *)
Lemma stage_final S i d : (forall s, In s S) -> new_live c kid L i -> In d dirs ->
  stage S i d = final case c kid pair f i d.
Proof.
  intros HS Hi Hd. destruct Hi as [[Hi Ni]|[q ->]].
  - rewrite stage_old, final_old with (L := L) by auto.
    destruct (range c i) as [E|[s E]].
    + destruct (existsb _ S); auto. unfold old_list. rewrite E. auto.
    + replace (existsb _ S) with true; auto. symmetry. apply existsb_exists. exists s.
      split; auto. apply Z.eqb_eq; auto.
  - apply In_dirs_code in Hd as (dd & ->). rewrite stage_kid, final_kid; auto.
Qed.

Lemma stage_drop g S : (forall s, In s S) -> rep K g (all_live kid L) (stage S) ->
  exists g', remove_node g (K c) = Ok g' /\ rep K g' (new_live c kid L) (final case c kid pair f).
Proof.
  intros HS R. destruct (rep_remove_node K K_inj _ _ _ c R) as (g' & E & R'); [left; auto|].
  exists g'. split; auto. eapply rep_ext; [| |exact R'].
  - intros i. unfold all_live, new_live. split.
    + intros [[H|H] N]; auto.
    + intros [[H N]|[q ->]]; split; eauto. intros <-. eapply kid_new; eauto.
  - intros i d [Hi Ni] Hd. apply stage_final; auto. destruct Hi as [Hi|Hi]; [left; auto | right; auto].
Qed.
End Split.
End Stage.

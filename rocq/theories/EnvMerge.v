(** EnvironmentMesh.merge_mesh: removal, renumbering, union and tying of graphs. *)
From Verif Require Import Base Geo Graph Cell Builder Env Spec MeshSpec EnvSpec QLib CaseProofs SplitGeo Dict Rep SplitCore Stage BuilderSplit Invariant EnvSplit EnvInv.
Open Scope Z_scope.

(** ** Removing a cell *)
Lemma rem_id x l : ~ In x l -> rem x l = l.
Proof.
  intros H. unfold rem. rewrite (filter_ext_in _ (fun _ => true)).
  - clear. induction l; cbn; congruence.
  - intros a Ha. destruct (Z.eqb_spec x a); auto. subst; tauto.
Qed.

Section RemoveNode.
Variable case : Z -> Z -> Z.
Variable L : Z -> Prop.
Variable f : Z -> Z -> list Z.
Variable c : Z.
Hypothesis Lc : L c.
Hypothesis anti : forall i j, L i -> L j -> case j i = - case i j.
Hypothesis irr : forall i, L i -> case i i = 0.
Hypothesis E : exact_for L case f.

Let after (pre : list Z) (i d : Z) : list Z :=
  if existsb (Z.eqb (- d)) pre then rem c (f i d) else f i d.

Lemma dir_nonzero d : In d dirs -> d <> 0.
Proof. cbn. intuition lia. Qed.

Lemma remove_node_ok g : rep KS g L f ->
  exists g', remove_node_and_update_neighbours g (KS c) = Ok g' /\
    rep KS g' (fun i => L i /\ i <> c) (fun i d => rem c (f i d)) /\
    exact_for (fun i => L i /\ i <> c) case (fun i d => rem c (f i d)).
Proof.
  intros R. unfold remove_node_and_update_neighbours.
  destruct (foldM_inv (fun pre g => rep KS g L (after pre))
    (fun g d => remove_node_from_neighbours g (KS c) d)
    [north_east; east; south_east; south; south_west; west; north_west; north]) with (s0 := g) as (g1 & E1 & R1).
  - exact R.
  - intros pre d post s El Rs.
    assert (Hd : In d dirs).
    { assert (X : In d [north_east; east; south_east; south; south_west; west; north_west; north]).
      { rewrite El. apply in_or_app; right; left; auto. }
      cbn in X |- *. tauto. }
    assert (Nd : ~ In d pre).
    { assert (X : NoDup [north_east; east; south_east; south; south_west; west; north_west; north]).
      { repeat constructor; cbn; intuition discriminate. }
      rewrite El in X. apply NoDup_remove_2 in X. intros H. apply X, in_or_app. auto. }
    unfold remove_node_from_neighbours.
    rewrite (rep_KS_miss_dir _ _ _ _ _ Rs Lc). rewrite (rep_get KS _ _ _ _ _ Rs Lc Hd). cbn [bind].
    assert (Ac : after pre c d = f c d).
    { unfold after. destruct (existsb _ pre); auto. apply rem_id. intros H.
      apply (E c d Lc Hd) in H as [_ H]. rewrite irr in H by auto. apply (dir_nonzero d); auto. }
    rewrite Ac.
    destruct (E c d Lc Hd) as [Nf If].
    destruct (remove_loop KS remove_from_one_KS s L _ c d (f c d) Rs Hd Nf) as (g' & Eg & Rg).
    + intros i Hi. apply If in Hi as [Li Ci].
      assert (Ei : after pre i (- d) = f i (- d)).
      { unfold after. destruct (existsb _ pre) eqn:X; auto. apply existsb_In in X.
        rewrite Z.opp_involutive in X. tauto. }
      rewrite Ei. destruct (E i (- d) Li (In_dirs_opp _ Hd)) as [Ni Ii].
      split; [auto|split; [auto|]]. apply Ii. split; auto. rewrite anti by auto. lia.
    + exists g'. split; auto. eapply rep_ext; [| |exact Rg]; [tauto|].
      intros i d' Li Hd'. unfold remove_all, after. rewrite existsb_app. cbn [existsb]. rewrite orb_false_r.
      destruct (Z.eqb_spec d' (- d)) as [->|N].
      * rewrite Z.opp_involutive, Z.eqb_refl, orb_true_r, andb_true_r.
        assert (X : existsb (Z.eqb d) pre = false).
        { destruct (existsb (Z.eqb d) pre) eqn:X; auto. apply existsb_In in X. tauto. }
        rewrite X. destruct (existsb (Z.eqb i) (f c d)) eqn:Y; auto.
        symmetry. apply rem_id. intros H. apply (E i (- d) Li Hd') in H as [_ H].
        enough (existsb (Z.eqb i) (f c d) = true) by congruence. apply existsb_In. apply If. split; auto.
        rewrite anti by auto. lia.
      * rewrite andb_false_r. destruct (Z.eqb_spec (- d') d); [lia|]. rewrite orb_false_r. auto.
  - rewrite E1. cbn [bind]. destruct (rep_remove_node KS KS_inj _ _ _ _ R1 Lc) as (g' & E' & R').
    unfold remove_node in E'. exists g'. split; auto. split.
    + eapply rep_ext; [| |exact R']; [tauto|]. intros i d _ Hd. unfold after.
      replace (existsb (Z.eqb (- d)) _) with true; auto. symmetry. apply existsb_In.
      apply In_dirs_opp in Hd. cbn in Hd |- *. tauto.
    + intros i d [Li Ni] Hd. destruct (E i d Li Hd) as [Nf If]. split; [apply rem_NoDup; auto|].
      intros j. rewrite rem_In, If. tauto.
Qed.
End RemoveNode.

Lemma env_case_anti cs i j : (forall c, In c cs -> plane_bounds (e_bounds c)) -> NoDup (ids cs) ->
  elive cs i -> elive cs j -> icase false (ebx cs) j i = - icase false (ebx cs) i j.
Proof.
  intros P N. apply fam_anti. intros k Hk. apply elive_inv in Hk as (c & Hc & <-).
  rewrite ebx_id by auto. apply plane_ok; auto.
Qed.
Lemma env_case_irr cs i : (forall c, In c cs -> plane_bounds (e_bounds c)) -> NoDup (ids cs) ->
  elive cs i -> icase false (ebx cs) i i = 0.
Proof.
  intros P N. apply fam_irr. intros k Hk. apply elive_inv in Hk as (c & Hc & <-).
  rewrite ebx_id by auto. apply plane_ok; auto.
Qed.

Lemma remove_cellbox_ok m c : env_inv m -> In c (em_cells m) ->
  exists m', remove_cellbox m c = Ok m' /\ env_inv m' /\
    em_cells m' = remove_first (e_id c) (em_cells m) /\ em_bounds m' = em_bounds m /\ em_config m' = em_config m.
Proof.
  intros (N & P & S & f & R & X) Hc.
  destruct (remove_node_ok (icase false (ebx (em_cells m))) (elive (em_cells m)) f (e_id c)) with (g := em_graph m)
    as (g' & E' & R' & X'); auto using elive_in, env_case_anti, env_case_irr.
  unfold remove_cellbox. rewrite E'. cbn [bind]. eexists. split; [reflexivity|]. cbn [em_cells em_bounds em_config].
  split; auto.
  assert (Lv : forall i, elive (em_cells m) i /\ i <> e_id c <-> elive (remove_first (e_id c) (em_cells m)) i).
  { intros i. split.
    - intros [H Ni]. apply elive_inv in H as (x & Hx & <-). apply elive_in. apply remove_first_in; auto.
    - intros H. apply elive_inv in H as (x & Hx & <-). apply remove_first_in in Hx as [Hx Ni]; auto.
      split; auto. apply elive_in; auto. }
  assert (N' : NoDup (ids (remove_first (e_id c) (em_cells m)))) by (apply remove_first_NoDup; auto).
  split; [|split; [|split]]; cbn [em_cells em_graph].
  - auto.
  - intros x Hx. apply remove_first_in in Hx as [Hx _]; auto.
  - intros x y Hx Hy. apply remove_first_in in Hx as [Hx _]; auto. apply remove_first_in in Hy as [Hy _]; auto.
  - eexists. split.
    + eapply rep_ext; [| |exact R']; auto.
    + eapply exact_for_ext; [exact Lv| |exact X'].
      intros i j Hi Hj. unfold icase.
      assert (Y : forall k, elive (em_cells m) k /\ k <> e_id c ->
                ebx (remove_first (e_id c) (em_cells m)) k = ebx (em_cells m) k).
      { intros k Hk. apply Lv, elive_inv in Hk as (x & Hx & <-). rewrite ebx_id by auto.
        apply remove_first_in in Hx as [Hx _]; auto. rewrite ebx_id by auto. auto. }
      rewrite !Y by auto. auto.
Qed.

Lemma remove_first_filter cs c : NoDup (ids cs) -> In c cs ->
  remove_first (e_id c) cs = filter (fun x => negb (e_id x =? e_id c)) cs.
Proof.
  intros N H. apply in_split in H as (l1 & l2 & ->). rewrite remove_first_app by auto.
  unfold ids in N. rewrite map_app in N. cbn in N. apply NoDup_remove in N as [_ N].
  rewrite <- map_app in N. rewrite filter_app. cbn. rewrite Z.eqb_refl. cbn.
  assert (X : forall l, (forall x, In x l -> e_id x <> e_id c) -> filter (fun x => negb (e_id x =? e_id c)) l = l).
  { induction l as [|x l IH]; intros Hl; cbn; auto.
    destruct (Z.eqb_spec (e_id x) (e_id c)); [exfalso; apply (Hl x); cbn; auto|]. cbn. f_equal.
    apply IH. intros; apply Hl; right; auto. }
  rewrite !X; auto; intros x Hx E; apply N; rewrite <- E; apply in_map, in_or_app; auto.
Qed.

Lemma NoDup_ids_filter p cs : NoDup (ids cs) -> NoDup (ids (filter p cs)).
Proof.
  induction cs as [|x cs IH]; cbn; auto. intros H. inversion_clear H as [|? ? H1 H2].
  destruct (p x); cbn; auto. constructor; auto. intros H. apply H1.
  apply in_map_iff in H as (y & <- & Hy). apply filter_In in Hy as [Hy _]. apply in_map; auto.
Qed.
Lemma filter_filter {A} (p q : A -> bool) l : filter p (filter q l) = filter (fun x => q x && p x) l.
Proof.
  induction l as [|x l IH]; cbn; auto. destruct (q x); cbn; rewrite IH; auto.
Qed.

Lemma remove_within_ok m b : env_inv m ->
  exists m', remove_cellboxes_within_bounds m b = Ok m' /\ env_inv m' /\
    em_cells m' = filter (fun c => negb (within_bounds b c)) (em_cells m) /\
    em_bounds m' = em_bounds m /\ em_config m' = em_config m.
Proof.
  intros I. unfold remove_cellboxes_within_bounds.
  set (l := filter (within_bounds b) (em_cells m)).
  assert (N : NoDup (ids (em_cells m))) by apply I.
  assert (Nl : NoDup (ids l)) by (apply NoDup_ids_filter; auto).
  destruct (foldM_inv (fun pre m' => env_inv m' /\
      em_cells m' = filter (fun c => negb (existsb (Z.eqb (e_id c)) (ids pre))) (em_cells m) /\
      em_bounds m' = em_bounds m /\ em_config m' = em_config m) remove_cellbox l) with (s0 := m)
    as (m' & E' & I' & C' & Bd & Cf).
  - split; auto. split; auto. cbn. clear. induction (em_cells m); cbn; congruence.
  - intros pre c post s El (Is & Cs & Bs & Fs).
    assert (Hc : In c l) by (rewrite El; apply in_or_app; right; left; auto).
    assert (Hc' : In c (em_cells s)).
    { rewrite Cs. apply filter_In. split; [apply filter_In in Hc; tauto|].
      apply negb_true_iff. destruct (existsb _ (ids pre)) eqn:X; auto. apply existsb_In in X.
      exfalso. rewrite El in Nl. unfold ids in Nl. rewrite map_app in Nl. cbn in Nl.
      apply NoDup_remove_2 in Nl. apply Nl, in_or_app. auto. }
    destruct (remove_cellbox_ok s c Is Hc') as (s' & Es & Is' & Cs' & B' & F').
    exists s'. split; auto. split; auto. split; [|split; congruence].
    rewrite Cs', remove_first_filter, Cs; auto; [|apply Is].
    rewrite filter_filter. apply filter_ext. intros x. unfold ids. rewrite map_app, existsb_app. cbn.
    rewrite orb_false_r. destruct (existsb _ _); auto.
  - exists m'. split; auto. split; auto. split; auto. rewrite C'. apply filter_ext_in. intros x Hx. f_equal.
    unfold l. destruct (within_bounds b x) eqn:W.
    + apply existsb_In. apply in_map, filter_In. auto.
    + destruct (existsb _ _) eqn:X; auto. apply existsb_In in X. apply in_map_iff in X as (y & Ey & Hy).
      apply filter_In in Hy as [Hy Wy]. assert (x = y) by (apply (same_id (em_cells m)); auto). congruence.
Qed.

(** ** Renumbering *)
Lemma fold_dset_fresh {V W} (key : pykey * W -> pykey) (val : pykey * W -> V) (l : dict W) : forall acc,
  NoDup (map key l) -> (forall kv, In kv l -> ~ In (key kv) (dkeys acc)) ->
  fold_left (fun acc kv => dset acc (key kv) (val kv)) l acc = acc ++ map (fun kv => (key kv, val kv)) l.
Proof.
  induction l as [|kv l IH]; intros acc N F; cbn.
  - rewrite app_nil_r. auto.
  - inversion_clear N as [|? ? N1 N2]. rewrite dset_keys_notin by (apply F; left; auto).
    rewrite IH; auto.
    + rewrite <- app_assoc. auto.
    + intros kv' H' X. unfold dkeys in X. rewrite map_app, in_app_iff in X. destruct X as [X|[X|[]]].
      * apply (F kv'); [right; auto|exact X].
      * cbn in X. apply N1. rewrite X. apply in_map; auto.
Qed.

Lemma dget_map_keys {V W} (key : pykey -> pykey) (val : V -> W) (d : dict V) k :
  (forall k', In k' (dkeys d) -> key k' = key k -> k' = k) ->
  dget_opt (map (fun kv => (key (fst kv), val (snd kv))) d) (key k) = option_map val (dget_opt d k).
Proof.
  induction d as [|(k0, v) d IH]; cbn; auto. intros H.
  destruct (key_eqb_spec (key k) (key k0)) as [E|N], (key_eqb_spec k k0) as [E'|N']; auto.
  - exfalso. apply N'. symmetry. apply H; auto.
  - exfalso. apply N. congruence.
Qed.

Lemma rep_map_increment inc m h : rep_map KS m h -> rep_map KS (increment_map inc m) (fun d => map (fun x => x + inc) (h d)).
Proof.
  intros (N & K & G).
  assert (Dk : dkeys (increment_map inc m) = dkeys m).
  { unfold dkeys, increment_map. rewrite map_map. auto. }
  split; [rewrite Dk; auto|]. split; [intros; rewrite Dk; auto|].
  intros d Hd. unfold increment_map. rewrite (dget_map_keys (fun k => k) (map (fun x => x + inc)) m (KS d)) by auto.
  rewrite G by auto. reflexivity.
Qed.

Lemma increment_graph_eq inc g L f : rep KS g L f ->
  increment_graph inc g = map (fun kv => (KS (key_int (fst kv) + inc), increment_map inc (snd kv))) g.
Proof.
  intros (N & K & _). unfold increment_graph.
  rewrite (fold_dset_fresh (fun kv => KS (key_int (fst kv) + inc)) (fun kv => increment_map inc (snd kv))).
  - reflexivity.
  - assert (X : forall l, (forall k, In k l -> exists i, k = KS i) -> NoDup l -> NoDup (map (fun k => KS (key_int k + inc)) l)).
    { induction l as [|k l IH]; cbn; [constructor|]. intros H Nl. inversion_clear Nl as [|? ? Nk Nl'].
      constructor; auto. rewrite in_map_iff. intros (k' & E' & H'). apply Nk.
      destruct (H k (or_introl eq_refl)) as (i & ->). destruct (H k' (or_intror H')) as (i' & ->).
      cbn in E'. apply KS_inj in E'. replace i with i' by lia. auto. }
    replace (map _ g) with (map (fun k => KS (key_int k + inc)) (dkeys g)).
    + apply X; auto. intros k Hk. apply K in Hk as (i & -> & _). eauto.
    + unfold dkeys. rewrite map_map. auto.
  - intros kv _ [].
Qed.

Lemma rep_increment inc g L f : rep KS g L f ->
  rep KS (increment_graph inc g) (fun i => L (i - inc)) (fun i d => map (fun x => x + inc) (f (i - inc) d)).
Proof.
  intros R. rewrite (increment_graph_eq _ _ _ _ R). pose proof R as (N & K & G).
  set (key := fun k => KS (key_int k + inc)).
  change (rep KS (map (fun kv => (key (fst kv), increment_map inc (snd kv))) g) (fun i => L (i - inc))
    (fun i d => map (fun x => x + inc) (f (i - inc) d))).
  assert (Dk : dkeys (map (fun kv => (key (fst kv), increment_map inc (snd kv))) g) = map key (dkeys g)).
  { unfold dkeys. rewrite !map_map. auto. }
  split; [|split].
  - rewrite Dk. clear - N K. assert (X : forall k, In k (dkeys g) -> exists i, k = KS i).
    { intros k Hk. apply K in Hk as (i & -> & _). eauto. } clear K.
    revert N X. generalize (dkeys g) as l. induction l as [|k l IH]; cbn; [constructor|]. intros Nl H.
    inversion_clear Nl as [|? ? Nk Nl']. constructor; auto. rewrite in_map_iff. intros (k' & E' & H'). apply Nk.
    destruct (H k (or_introl eq_refl)) as (i & ->). destruct (H k' (or_intror H')) as (i' & ->).
    unfold key in E'. cbn in E'. apply KS_inj in E'. replace i with i' by lia. auto.
  - intros k. rewrite Dk, in_map_iff. split.
    + intros (k' & <- & H). apply K in H as (i & -> & Hi). exists (i + inc). unfold key. cbn.
      split; auto. replace (i + inc - inc) with i by lia. auto.
    + intros (i & -> & H). exists (KS (i - inc)). unfold key. cbn. split; [f_equal; lia|].
      apply K. eauto.
  - intros i Hi. destruct (G (i - inc) Hi) as (m & Em & Rm). exists (increment_map inc m). split.
    + replace (KS i) with (key (KS (i - inc))) by (unfold key; cbn; f_equal; lia).
      rewrite dget_map_keys, Em; auto. intros k' Hk' E'. apply K in Hk' as (i' & -> & _).
      unfold key in E'. cbn in E'. apply KS_inj in E'. f_equal. lia.
    + apply rep_map_increment; auto.
Qed.

Lemma e_id_increment inc c : e_id (increment_cell inc c) = e_id c + inc.
Proof. reflexivity. Qed.
Lemma ids_increment inc cs : ids (map (increment_cell inc) cs) = map (fun i => i + inc) (ids cs).
Proof. unfold ids. rewrite !map_map. auto. Qed.
Lemma ids_increment_NoDup inc cs : NoDup (ids cs) -> NoDup (ids (map (increment_cell inc) cs)).
Proof.
  rewrite ids_increment. generalize (ids cs). induction l as [|x l IH]; cbn; [constructor|].
  intros H. inversion_clear H as [|? ? H1 H2]. constructor; auto.
  rewrite in_map_iff. intros (y & Ey & Hy). apply H1. replace x with y by lia. auto.
Qed.

Lemma increment_ids_inv inc m : env_inv m -> env_inv (increment_ids inc m).
Proof.
  intros (N & P & S & f & R & X). unfold increment_ids.
  assert (N' : NoDup (ids (map (increment_cell inc) (em_cells m)))) by (apply ids_increment_NoDup; auto).
  split; [|split; [|split]]; cbn [em_cells em_graph].
  - auto.
  - intros c Hc. apply in_map_iff in Hc as (x & <- & Hx). cbn. auto.
  - intros c c' Hc Hc'. apply in_map_iff in Hc as (x & <- & Hx). apply in_map_iff in Hc' as (x' & <- & Hx').
    cbn. intros Ni. apply S; auto. lia.
  - assert (Lv : forall i, elive (em_cells m) (i - inc) <-> elive (map (increment_cell inc) (em_cells m)) i).
    { intros i. unfold elive. rewrite ids_increment, in_map_iff. split.
      - intros H. exists (i - inc). split; auto; lia.
      - intros (k & <- & H). replace (k + inc - inc) with k by lia. auto. }
    eexists. split.
    + eapply rep_ext; [exact Lv| |apply rep_increment; exact R]. reflexivity.
    + intros i d Hi Hd. pose proof (proj2 (Lv i) Hi) as Hi'. destruct (X (i - inc) d Hi' Hd) as [Nf If]. split.
      * revert Nf. generalize (f (i - inc) d). induction l as [|x l IH]; cbn; [constructor|].
        intros H. inversion_clear H as [|? ? H1 H2]. constructor; auto.
        rewrite in_map_iff. intros (y & Ey & Hy). apply H1. replace x with y by lia. auto.
      * assert (Bx : forall k, elive (map (increment_cell inc) (em_cells m)) k ->
                   ebx (map (increment_cell inc) (em_cells m)) k = ebx (em_cells m) (k - inc)).
        { intros k Hk. apply elive_inv in Hk as (x & Hx & <-). rewrite ebx_id by auto.
          apply in_map_iff in Hx as (y & <- & Hy). cbn.
          replace (e_id y + inc - inc) with (e_id y) by lia. rewrite ebx_id; auto. }
        intros j. rewrite in_map_iff. split.
        -- intros (k & <- & Hk). apply If in Hk as [Hk Ek]. split.
           ++ apply Lv. replace (k + inc - inc) with k by lia. auto.
           ++ unfold icase in *. rewrite !Bx; auto; [|apply Lv; replace (k + inc - inc) with k by lia; auto].
              replace (k + inc - inc) with k by lia. auto.
        -- intros [Hj Ej]. exists (j - inc). split; [lia|]. apply If. split; [apply Lv; auto|].
           unfold icase in *. rewrite !Bx in Ej by auto. auto.
Qed.

(** ** Tying *)
Section Tie.
Variable cs : list ecell.
Hypothesis Nd : NoDup (ids cs).
Let L := elive cs.
Let case := icase false (ebx cs).

(** The lists hold exactly the contacts that satisfy [P]. *)
Definition exact_on (P : Z -> Z -> Prop) (f : Z -> Z -> list Z) : Prop :=
  forall i d, L i -> In d dirs ->
    NoDup (f i d) /\ forall j, In j (f i d) <-> L j /\ case i j = d /\ P i j.

Definition ties (to : list ecell) (i d : Z) : list Z :=
  map e_id (filter (fun c' => case i (e_id c') =? d) to).

Lemma add_loop (i d : Z) l : L i -> In d dirs -> forall g f, rep KS g L f ->
  exists g', foldM (fun g x => add_neighbour g (KS i) (KS d) x) g l = Ok g' /\ rep KS g' L (upd f i d (f i d ++ l)).
Proof.
  intros Li Hd. induction l as [|x l IH]; intros g f R; cbn [foldM].
  - exists g. split; auto. eapply rep_same; [|exact R]. intros i' d' _ _. unfold upd.
    destruct (Z.eqb_spec i' i), (Z.eqb_spec d' d); subst; cbn; rewrite ?app_nil_r; auto.
  - destruct (rep_add KS KS_inj g L f i d x R Li Hd) as (g1 & E1 & R1). rewrite E1. cbn [bind].
    destruct (IH g1 _ R1) as (g' & E' & R'). exists g'. split; auto.
    eapply rep_same; [|exact R']. intros i' d' _ _. unfold upd.
    rewrite !Z.eqb_refl. cbn [andb].
    destruct (Z.eqb_spec i' i), (Z.eqb_spec d' d); subst; cbn; auto. rewrite <- app_assoc. auto.
Qed.

Lemma tie_one_ok ds to c g f : In c cs -> incl to cs -> NoDup ds -> incl ds dirs -> rep KS g L f ->
  exists g', tie_one ds to g c = Ok g' /\
    rep KS g' L (fun i d => if (i =? e_id c) && existsb (Z.eqb d) ds then f i d ++ ties to i d else f i d).
Proof.
  intros Hc Hto Nds Ids R. unfold tie_one.
  destruct (foldM_inv (fun pre g => rep KS g L (fun i d => if (i =? e_id c) && existsb (Z.eqb d) pre then f i d ++ ties to i d else f i d))
    (fun g d => foldM (fun g x => add_neighbour g (KS (e_id c)) (KS d) x) g
       (map e_id (filter (fun c' => get_neighbour_case_bounds (e_bounds c) (e_bounds c') =? d) to))) ds) with (s0 := g)
    as (g' & E' & R').
  - eapply rep_same; [|exact R]. intros. cbn. rewrite andb_false_r. auto.
  - intros pre d post s El Rs. subst ds.
    assert (Hd : In d dirs) by (apply Ids, in_or_app; right; left; auto).
    assert (Np : existsb (Z.eqb d) pre = false).
    { destruct (existsb _ pre) eqn:X; auto. apply existsb_In in X. exfalso. apply NoDup_remove_2 in Nds.
      apply Nds, in_or_app; auto. }
    replace (map e_id (filter _ to)) with (ties to (e_id c) d).
    2:{ unfold ties. f_equal. apply filter_ext_in. intros c' Hc'. unfold case, icase.
        rewrite !ebx_id by auto. reflexivity. }
    destruct (add_loop (e_id c) d (ties to (e_id c) d) (elive_in _ _ Hc) Hd s _ Rs) as (g1 & E1 & R1).
    exists g1. split; auto. eapply rep_same; [|exact R1]. intros i d' _ _. unfold upd. rewrite existsb_app. cbn [existsb].
    rewrite orb_false_r, Np, Z.eqb_refl. cbn [andb].
    destruct (Z.eqb_spec i (e_id c)), (Z.eqb_spec d' d); subst; cbn [andb orb]; rewrite ?Np, ?orb_true_r, ?orb_false_r; auto.
  - exists g'. split; auto.
Qed.

Lemma tie_half ds from to P g f :
  incl from cs -> incl to cs -> NoDup (ids from) -> NoDup (ids to) -> NoDup ds -> incl ds dirs ->
  (forall i j, In i (ids from) -> In j (ids to) -> ~ P i j) ->
  (forall i j, In i (ids from) -> In j (ids to) -> In (case i j) dirs -> In (case i j) ds) ->
  rep KS g L f -> exact_on P f ->
  exists g' f', foldM (tie_one ds to) g from = Ok g' /\ rep KS g' L f' /\
    exact_on (fun i j => P i j \/ (In i (ids from) /\ In j (ids to))) f'.
Proof.
  intros Hfrom Hto Nfrom Nto Nds Ids NP Full R E.
  set (f' := fun i d => if existsb (Z.eqb i) (ids from) && existsb (Z.eqb d) ds then f i d ++ ties to i d else f i d).
  destruct (foldM_inv (fun pre g => rep KS g L (fun i d => if existsb (Z.eqb i) (ids pre) && existsb (Z.eqb d) ds then f i d ++ ties to i d else f i d))
    (tie_one ds to) from) with (s0 := g) as (g' & E' & R').
  - exact R.
  - intros pre c post s El Rs. subst from.
    assert (Hc : In c cs) by (apply Hfrom, in_or_app; right; left; auto).
    destruct (tie_one_ok ds to c s _ Hc Hto Nds Ids Rs) as (s' & Es & Rs'). exists s'. split; auto.
    eapply rep_same; [|exact Rs']. intros i d _ _. unfold ids in *. rewrite map_app, existsb_app. cbn [map existsb].
    rewrite orb_false_r. destruct (Z.eqb_spec i (e_id c)) as [->|Ni]; cbn [andb].
    + assert (X : existsb (Z.eqb (e_id c)) (map e_id pre) = false).
      { destruct (existsb _ (map e_id pre)) eqn:X; auto. apply existsb_In in X. exfalso.
        rewrite map_app in Nfrom. cbn in Nfrom. apply NoDup_remove_2 in Nfrom. apply Nfrom, in_or_app; auto. }
      rewrite X, orb_true_r. cbn. auto.
    + rewrite orb_false_r. auto.
  - exists g', f'. split; auto. split; auto. intros i d Li Hd. destruct (E i d Li Hd) as [Nf If]. unfold f'.
    assert (Tin : forall j, In j (ties to i d) <-> In j (ids to) /\ case i j = d).
    { intros j. unfold ties, ids. rewrite !in_map_iff. split.
      - intros (c & <- & H). apply filter_In in H as [H Ec]. apply Z.eqb_eq in Ec. eauto.
      - intros ((c & <- & H) & Ec). exists c. split; auto. apply filter_In. split; auto. apply Z.eqb_eq; auto. }
    destruct (existsb (Z.eqb i) (ids from)) eqn:X1; [apply existsb_In in X1 | ].
    + destruct (existsb (Z.eqb d) ds) eqn:X2; cbn [andb].
      * split.
        -- apply NoDup_app_intro; auto.
           ++ apply (NoDup_ids_filter (fun c' => case i (e_id c') =? d)); auto.
           ++ intros j H1 H2. apply If in H1 as (_ & _ & H1). apply Tin in H2 as [H2 _]. eapply NP; eauto.
        -- intros j. rewrite in_app_iff, If, Tin. split.
           ++ intros [(?&?&?)|[H1 H2]]; [tauto|]. split; [|tauto].
              apply in_map_iff in H1 as (c & <- & H1). apply elive_in; auto.
           ++ tauto.
      * split; auto. intros j. rewrite If. split; [tauto|].
        intros (H1 & H2 & [H3|[H3 H4]]); [tauto|]. exfalso.
        assert (In (case i j) ds) by (apply Full; auto; rewrite H2; auto). rewrite H2 in H.
        apply existsb_In in H. congruence.
    + cbn [andb]. split; auto. intros j. rewrite If. split; [tauto|].
      intros (H1 & H2 & [H3|[H3 H4]]); [tauto|]. exfalso. apply existsb_In in H3. congruence.
Qed.

Lemma tie_ok de di ext int P g f :
  incl ext cs -> incl int cs -> NoDup (ids ext) -> NoDup (ids int) -> NoDup de -> NoDup di -> incl de dirs -> incl di dirs ->
  (forall i j, In i (ids ext) -> In j (ids int) -> ~ P i j /\ ~ P j i) ->
  (forall i, In i (ids ext) -> In i (ids int) -> False) ->
  (forall i j, In i (ids ext) -> In j (ids int) -> In (case i j) dirs -> In (case i j) de) ->
  (forall i j, In i (ids ext) -> In j (ids int) -> In (case j i) dirs -> In (case j i) di) ->
  rep KS g L f -> exact_on P f ->
  exists g' f', tie de di ext int g = Ok g' /\ rep KS g' L f' /\
    exact_on (fun i j => P i j \/ (In i (ids ext) /\ In j (ids int)) \/ (In i (ids int) /\ In j (ids ext))) f'.
Proof.
  intros He Hi Ne Ni Nde Ndi Ide Idi NP Dj F1 F2 R E. unfold tie.
  destruct (tie_half de ext int P g f) as (g1 & f1 & E1 & R1 & X1); auto.
  { intros i j H1 H2. apply (NP i j); auto. }
  rewrite E1. cbn [bind].
  destruct (tie_half di int ext (fun i j => P i j \/ In i (ids ext) /\ In j (ids int)) g1 f1) as (g2 & f2 & E2 & R2 & X2); auto.
  { intros i j H1 H2 [H|[H3 H4]]; [apply (NP j i) in H; auto|]. eapply Dj; eauto. }
  exists g2, f2. split; auto. split; auto. intros i d Li Hd. destruct (X2 i d Li Hd) as [Nf If]. split; auto.
  intros j. rewrite If. tauto.
Qed.
End Tie.

(** ** Geometry of a merge *)
Definition nostraddle (B a : box) : Prop :=
  ((x0 B <= x0 a /\ x1 a <= x1 B) \/ x1 a <= x0 B \/ x1 B <= x0 a)%Q /\
  ((y0 B <= y0 a /\ y1 a <= y1 B) \/ y1 a <= y0 B \/ y1 B <= y0 a)%Q.
Definition box_in (B a : box) : Prop := (x0 B <= x0 a /\ x1 a <= x1 B /\ y0 B <= y0 a /\ y1 a <= y1 B)%Q.

Definition xN (B a : box) : Prop := (y0 a == y1 B /\ x0 B <= x1 a /\ x0 a <= x1 B)%Q.
Definition xS (B a : box) : Prop := (y1 a == y0 B /\ x0 B <= x1 a /\ x0 a <= x1 B)%Q.
Definition xE (B a : box) : Prop := (x0 a == x1 B /\ y0 B <= y0 a /\ y1 a <= y1 B)%Q.
Definition xW (B a : box) : Prop := (x1 a == x0 B /\ y0 B <= y0 a /\ y1 a <= y1 B)%Q.

Lemma ext_int B a b d : proper a -> proper b -> proper B -> box_in B b -> nostraddle B a -> ~ box_in B a -> lin d a b ->
  (xN B a /\ y1 b == y1 B)%Q \/ (xS B a /\ y0 b == y0 B)%Q \/
  (xE B a /\ x1 b == x1 B)%Q \/ (xW B a /\ x0 b == x0 B)%Q.
Proof.
  unfold proper, box_in, nostraddle, xN, xS, xE, xW. intros Pa Pb PB I (Sx & Sy) NI H.
  destruct Sy as [Sy|[Sy|Sy]].
  - destruct Sx as [Sx|[Sx|Sx]].
    + exfalso. apply NI. lra.
    + right; right; right. destruct d; cbn in H; repeat split; lra.
    + right; right; left. destruct d; cbn in H; repeat split; lra.
  - right; left. destruct d; cbn in H; repeat split; lra.
  - left. destruct d; cbn in H; repeat split; lra.
Qed.

Lemma kept_apart B a b : box_in B b -> nostraddle B a -> ~ box_in B a -> sep a b.
Proof.
  unfold box_in, nostraddle, sep. intros I (Sx & Sy) NI.
  destruct Sy as [Sy|[Sy|Sy]]; [|right; right; left; lra|right; right; right; lra].
  destruct Sx as [Sx|[Sx|Sx]]; [exfalso; apply NI; lra|left; lra|right; left; lra].
Qed.

Ltac dirs_tac := cbn; intros; repeat match goal with H : _ \/ _ |- _ => destruct H end; subst; try lra; auto.

Lemma dN_int B a b d : proper a -> proper b -> xN B a -> (y1 b == y1 B)%Q -> lin d a b -> d = dS \/ d = dSW \/ d = dSE.
Proof. unfold proper, xN. intros Pa Pb X Y H. destruct d; cbn in H; auto; exfalso; lra. Qed.
Lemma dS_int B a b d : proper a -> proper b -> xS B a -> (y0 b == y0 B)%Q -> lin d a b -> d = dN \/ d = dNW \/ d = dNE.
Proof. unfold proper, xS. intros Pa Pb X Y H. destruct d; cbn in H; auto; exfalso; lra. Qed.
Lemma dE_int B a b d : proper a -> proper b -> xE B a -> (x1 b == x1 B)%Q -> lin d a b -> d = dW \/ d = dSW \/ d = dNW.
Proof. unfold proper, xE. intros Pa Pb X Y H. destruct d; cbn in H; auto; exfalso; lra. Qed.
Lemma dW_int B a b d : proper a -> proper b -> xW B a -> (x0 b == x0 B)%Q -> lin d a b -> d = dE \/ d = dSE \/ d = dNE.
Proof. unfold proper, xW. intros Pa Pb X Y H. destruct d; cbn in H; auto; exfalso; lra. Qed.
Lemma dN_ext B a b d : proper a -> proper b -> xN B a -> (y1 b == y1 B)%Q -> lin d b a -> d = dN \/ d = dNW \/ d = dNE.
Proof. unfold proper, xN. intros Pa Pb X Y H. destruct d; cbn in H; auto; exfalso; lra. Qed.
Lemma dS_ext B a b d : proper a -> proper b -> xS B a -> (y0 b == y0 B)%Q -> lin d b a -> d = dS \/ d = dSW \/ d = dSE.
Proof. unfold proper, xS. intros Pa Pb X Y H. destruct d; cbn in H; auto; exfalso; lra. Qed.
Lemma dE_ext B a b d : proper a -> proper b -> xE B a -> (x1 b == x1 B)%Q -> lin d b a -> d = dE \/ d = dSE \/ d = dNE.
Proof. unfold proper, xE. intros Pa Pb X Y H. destruct d; cbn in H; auto; exfalso; lra. Qed.
Lemma dW_ext B a b d : proper a -> proper b -> xW B a -> (x0 b == x0 B)%Q -> lin d b a -> d = dW \/ d = dSW \/ d = dNW.
Proof. unfold proper, xW. intros Pa Pb X Y H. destruct d; cbn in H; auto; exfalso; lra. Qed.

(** From the alignment test to whole grid cells. *)
Lemma qmod_zero a b : ~ (b == 0)%Q -> (qmod a b == 0)%Q -> exists k : Z, (a == inject_Z k * b)%Q.
Proof. intros Hb H. unfold qmod in H. exists (Qfloor (a / b)). lra. Qed.

Lemma in_or_out (o w lo hi i i' k : Q) (a0 a1 : Q) :
  (0 < w -> lo == o + i * w -> hi == o + i' * w -> o + k * w <= a0 -> a1 <= o + (k + 1) * w ->
   (k + 1 <= i \/ (i <= k /\ k + 1 <= i') \/ i' <= k) ->
   (lo <= a0 /\ a1 <= hi) \/ a1 <= lo \/ hi <= a0)%Q.
Proof.
  intros Hw El Eh A0 A1 [H|[[H H']|H]].
  - right; left. assert ((k + 1) * w <= i * w)%Q by (apply Qmult_le_compat_r; lra). lra.
  - left. assert (i * w <= k * w)%Q by (apply Qmult_le_compat_r; lra).
    assert ((k + 1) * w <= i' * w)%Q by (apply Qmult_le_compat_r; lra). lra.
  - right; right. assert (i' * w <= k * w)%Q by (apply Qmult_le_compat_r; lra). lra.
Qed.

Lemma Z_cases (i i' k : Z) : (i <= i')%Z ->
  (inject_Z k + 1 <= inject_Z i \/ (inject_Z i <= inject_Z k /\ inject_Z k + 1 <= inject_Z i') \/ inject_Z i' <= inject_Z k)%Q.
Proof.
  intros H. change 1%Q with (inject_Z 1). rewrite <- (inject_Z_plus k 1), <- !Zle_Qle. lia.
Qed.

Lemma inject_le_inv (i i' : Z) (w : Q) : (0 < w -> inject_Z i * w <= inject_Z i' * w)%Q -> (0 < w)%Q -> i <= i'.
Proof.
  intros H Hw. specialize (H Hw). apply Qmult_lt_0_le_reg_r in H; auto. rewrite <- Zle_Qle in H. auto.
Qed.

Lemma grid_nostraddle b0 w h B c : (0 < w)%Q -> (0 < h)%Q -> plane_bounds B -> plane_bounds c ->
  grid_aligned b0 w h B -> on_grid b0 w h c -> nostraddle (region B) (region c).
Proof.
  intros Hw Hh PB Pc (i & i' & j & j' & E1 & E2 & E3 & E4) (k & l & C1 & C2 & C3 & C4).
  destruct (plane_region B PB) as (X0 & X1 & Y0 & Y1). destruct (plane_region c Pc) as (X0' & X1' & Y0' & Y1').
  unfold nostraddle. rewrite X0, X1, Y0, Y1, X0', X1', Y0', Y1'.
  destruct PB as ((P1 & P2 & _) & _). rewrite inject_Z_plus in C2, C4.
  assert (i <= i') by (apply (inject_le_inv i i' w); auto; intros; lra).
  assert (j <= j') by (apply (inject_le_inv j j' h); auto; intros; lra).
  split.
  - apply (in_or_out (long_min b0) w _ _ (inject_Z i) (inject_Z i') (inject_Z k)); auto. apply Z_cases; auto.
  - apply (in_or_out (lat_min b0) h _ _ (inject_Z j) (inject_Z j') (inject_Z l)); auto. apply Z_cases; auto.
Qed.

Lemma validate_aligned m1 m2 : plane_bounds (em_bounds m2) -> validate_merge m1 m2 = Ok true ->
  grid_aligned (em_bounds m1) (c_width (em_config m1)) (c_height (em_config m1)) (em_bounds m2).
Proof.
  intros P. unfold validate_merge. cbv zeta.
  set (w := c_width (em_config m1)). set (h := c_height (em_config m1)).
  destruct (qeqb_spec h 0) as [|Hh]; [discriminate|].
  destruct (qeqb_spec (qmod (get_height (em_bounds m2)) h) 0) as [H1|]; cbn [negb]; [|discriminate].
  destruct (qeqb_spec w 0) as [|Hw]; [discriminate|].
  destruct (qeqb_spec (qmod (get_width (em_bounds m2)) w) 0) as [H2|]; cbn [negb]; [|discriminate].
  destruct (qeqb_spec (qmod (lat_min (em_bounds m1) - lat_min (em_bounds m2)) h) 0) as [H3|]; cbn [negb]; [|discriminate].
  destruct (qeqb_spec (qmod (long_min (em_bounds m1) - long_min (em_bounds m2)) w) 0) as [H4|]; cbn [negb]; [|discriminate].
  intros _.
  apply qmod_zero in H1 as (a & Ha); auto. apply qmod_zero in H2 as (b & Hb); auto.
  apply qmod_zero in H3 as (c & Hc); auto. apply qmod_zero in H4 as (d & Hd); auto.
  assert (Hgt : (get_height (em_bounds m2) == lat_max (em_bounds m2) - lat_min (em_bounds m2))%Q) by (unfold get_height; lra).
  destruct P as ((P1 & P2 & _) & _).
  pose proof (regular_width (em_bounds m2) (conj P1 P2)) as W.
  exists (- d), (b - d), (- c), (a - c).
  rewrite !inject_Z_opp. unfold Z.sub. rewrite !inject_Z_plus, !inject_Z_opp. repeat split; lra.
Qed.

(** ** The union of two graphs *)
Lemma dget_app {V} (d1 d2 : dict V) k :
  dget_opt (d1 ++ d2) k = match dget_opt d1 k with Some v => Some v | None => dget_opt d2 k end.
Proof. induction d1 as [|(k0, v) d1 IH]; cbn; auto. destruct (key_eqb k k0); auto. Qed.

Lemma rep_app g1 g2 L1 L2 f1 f2 mx : rep KS g1 L1 f1 -> rep KS g2 L2 f2 ->
  (forall i, L1 i -> i <= mx) -> (forall i, L2 i -> mx < i) ->
  rep KS (g1 ++ g2) (fun i => L1 i \/ L2 i) (fun i d => if i <=? mx then f1 i d else f2 i d).
Proof.
  intros (N1 & K1 & G1) (N2 & K2 & G2) H1 H2. split; [|split].
  - unfold dkeys. rewrite map_app. apply NoDup_app_intro; auto. intros k A B.
    apply K1 in A as (i & -> & A). apply K2 in B as (j & E & B). apply KS_inj in E. subst.
    specialize (H1 _ A). specialize (H2 _ B). lia.
  - intros k. unfold dkeys. rewrite map_app, in_app_iff. unfold dkeys in K1, K2. rewrite K1, K2. split.
    + intros [(i & -> & H)|(i & -> & H)]; eauto.
    + intros (i & -> & [H|H]); eauto.
  - intros i [H|H].
    + destruct (G1 i H) as (m & E & R). exists m. rewrite dget_app, E. split; auto.
      pose proof (H1 i H). destruct (Z.leb_spec i mx); [auto|lia].
    + destruct (G2 i H) as (m & E & R). exists m. rewrite dget_app.
      pose proof (H2 i H). destruct (Z.leb_spec i mx); [lia|].
      replace (dget_opt g1 (KS i)) with (@None nmap); auto. symmetry. apply dget_none. intros X.
      apply K1 in X as (j & Ej & Hj). apply KS_inj in Ej. subst. specialize (H1 _ Hj). lia.
Qed.

Lemma union_graphs g1 g2 : NoDup (dkeys g2) -> (forall k, In k (dkeys g2) -> ~ In k (dkeys g1)) ->
  fold_left (fun (g : graph) kv => add_node g (fst kv) (snd kv)) g2 g1 = g1 ++ g2.
Proof.
  intros N D. unfold add_node.
  etransitivity; [apply (fold_dset_fresh (V := nmap) (W := nmap) (fun kv => fst kv) (fun kv => snd kv) g2 g1)|].
  3: f_equal; rewrite <- (map_id g2) at 2; apply map_ext; intros (k, v); auto.
  - exact N.
  - intros kv H. apply D. apply (in_map fst) in H. exact H.
Qed.

(** ** The whole merge *)
Section Merge.
Variables m1 m2 : emesh.
Hypothesis I1 : env_inv m1.
Hypothesis I2 : env_inv m2.
Hypothesis Pos : forall c, In c (em_cells m2) -> 0 <= e_id c.
Hypothesis PB : plane_bounds (em_bounds m2).
Hypothesis In2 : forall c, In c (em_cells m2) -> inside (em_bounds m2) (e_bounds c).
Hypothesis NS : forall c, In c (em_cells m1) -> nostraddle (region (em_bounds m2)) (region (e_bounds c)).
Hypothesis V : validate_merge m1 m2 = Ok true.

Let b2 := em_bounds m2.
Let B := region b2.
Definition kept : list ecell := filter (fun c => negb (within_bounds (em_bounds m2) c)) (em_cells m1).
Let mx := get_max_cellbox_id kept.
Definition moved : list ecell := map (increment_cell (get_max_cellbox_id kept + 1)) (em_cells m2).
Let cs := kept ++ moved.
Let rg (i : Z) : box := region (ebx cs i).

Lemma kept_in c : In c kept <-> In c (em_cells m1) /\ within_bounds b2 c = false.
Proof. unfold kept. rewrite filter_In, negb_true_iff. tauto. Qed.

Lemma within_box c : plane_bounds (e_bounds c) -> within_bounds b2 c = true <-> box_in B (region (e_bounds c)).
Proof.
  intros P. unfold within_bounds, box_in, B. destruct (plane_region b2 PB) as (-> & -> & -> & ->).
  destruct (plane_region _ P) as (-> & -> & -> & ->). rewrite !andb_true_iff, !qleb_true. tauto.
Qed.

Lemma cellK c : In c kept -> plane_bounds (e_bounds c) /\ nostraddle B (region (e_bounds c)) /\ ~ box_in B (region (e_bounds c)).
Proof.
  intros H. apply kept_in in H as [H W].
  assert (P : plane_bounds (e_bounds c)) by (apply I1; auto). split; auto. split; [apply NS; auto|].
  rewrite <- within_box by auto. congruence.
Qed.
Lemma cellM c : In c moved -> plane_bounds (e_bounds c) /\ box_in B (region (e_bounds c)) /\ mx < e_id c.
Proof.
  intros H. apply in_map_iff in H as (x & <- & Hx). cbn [increment_cell e_bounds e_id].
  assert (P : plane_bounds (e_bounds x)) by (apply I2; auto). split; auto. split.
  - unfold B, box_in. destruct (plane_region b2 PB) as (-> & -> & -> & ->).
    destruct (plane_region _ P) as (-> & -> & -> & ->). apply In2; auto.
  - pose proof (Pos x Hx). fold mx. lia.
Qed.
Lemma idK c : In c kept -> e_id c <= mx.
Proof. apply max_id. Qed.

Lemma kept_NoDup : NoDup (ids kept).
Proof. apply NoDup_ids_filter. apply I1. Qed.
Lemma moved_NoDup : NoDup (ids moved).
Proof. apply ids_increment_NoDup. apply I2. Qed.
Lemma cs_NoDup : NoDup (ids cs).
Proof.
  unfold cs, ids. rewrite map_app. apply NoDup_app_intro; [apply kept_NoDup|apply moved_NoDup|].
  intros i H H'. apply in_map_iff in H as (c & <- & H). apply in_map_iff in H' as (c' & E & H').
  pose proof (idK c H). destruct (cellM c' H') as (_ & _ & ?). lia.
Qed.
Lemma cs_plane c : In c cs -> plane_bounds (e_bounds c).
Proof. intros H. apply in_app_or in H as [H|H]; [apply cellK|apply cellM]; auto. Qed.
Lemma liveK i : elive kept i -> i <= mx /\ nostraddle B (rg i) /\ ~ box_in B (rg i) /\ elive cs i.
Proof.
  intros H. apply elive_inv in H as (c & H & <-). assert (Hc : In c cs) by (apply in_or_app; auto).
  unfold rg. rewrite ebx_id by (auto using cs_NoDup). split; [apply idK; auto|].
  destruct (cellK c H) as (_ & ? & ?). repeat split; auto; try apply H0. apply elive_in; auto.
Qed.
Lemma liveM i : elive moved i -> mx < i /\ box_in B (rg i) /\ elive cs i.
Proof.
  intros H. apply elive_inv in H as (c & H & <-). assert (Hc : In c cs) by (apply in_or_app; auto).
  unfold rg. rewrite ebx_id by (auto using cs_NoDup). destruct (cellM c H) as (_ & ? & ?).
  split; auto. split; auto. apply elive_in; auto.
Qed.
Lemma live_cs i : elive cs i <-> elive kept i \/ elive moved i.
Proof. unfold elive, cs, ids. rewrite map_app, in_app_iff. tauto. Qed.
Lemma rg_proper i : elive cs i -> proper (rg i).
Proof.
  intros H. apply elive_inv in H as (c & H & <-). unfold rg. rewrite ebx_id by (auto using cs_NoDup).
  apply plane_proper, cs_plane; auto.
Qed.
Lemma case_lin i j d : elive cs i -> elive cs j -> icase false (ebx cs) i j = code d <-> lin d (rg i) (rg j).
Proof.
  apply (fam_case false (elive cs) (ebx cs)). intros k Hk. apply elive_inv in Hk as (c & Hc & <-).
  rewrite ebx_id by (auto using cs_NoDup). apply plane_ok, cs_plane; auto.
Qed.
Lemma rg_sep i j : elive cs i -> elive cs j -> i <> j -> sep (rg i) (rg j).
Proof.
  intros Hi Hj N. apply live_cs in Hi as [Hi|Hi]; apply live_cs in Hj as [Hj|Hj].
  - apply elive_inv in Hi as (c & Hc & <-). apply elive_inv in Hj as (c' & Hc' & <-).
    unfold rg. rewrite !ebx_id by (auto using cs_NoDup; apply in_or_app; auto).
    apply kept_in in Hc as [Hc _]. apply kept_in in Hc' as [Hc' _]. apply I1; auto.
  - apply (kept_apart B); [apply (liveM j Hj) | apply (liveK i Hi) | apply (liveK i Hi)].
  - apply sep_sym. apply (kept_apart B); [apply (liveM i Hi) | apply (liveK j Hj) | apply (liveK j Hj)].
  - pose proof (increment_ids_inv (mx + 1) m2 I2) as (_ & _ & S & _).
    apply elive_inv in Hi as (c & Hc & <-). apply elive_inv in Hj as (c' & Hc' & <-).
    unfold rg. rewrite !ebx_id by (auto using cs_NoDup; apply in_or_app; auto). apply S; auto.
Qed.

(** The cells each tie works on. *)
Lemma ext_ids (p : ecell -> bool) (X : box -> Prop) :
  (forall c, In c kept -> p c = true <-> X (region (e_bounds c))) -> (forall c, In c moved -> p c = false) ->
  forall i, In i (ids (filter p cs)) <-> elive kept i /\ X (rg i).
Proof.
  intros HK HM i. split.
  - intros H. apply in_map_iff in H as (c & <- & H). apply filter_In in H as [H Hp].
    unfold rg. rewrite ebx_id by (auto using cs_NoDup).
    apply in_app_or in H as [H|H]; [|rewrite HM in Hp by auto; discriminate].
    split; [apply elive_in; auto|]. apply HK; auto.
  - intros [H HX]. apply elive_inv in H as (c & H & <-). apply in_map_iff. exists c. split; auto.
    assert (Hc : In c cs) by (apply in_or_app; auto).
    apply filter_In. split; auto. apply HK; auto. unfold rg in HX. rewrite ebx_id in HX by (auto using cs_NoDup). auto.
Qed.
Lemma int_ids (p : ecell -> bool) (X : box -> Prop) :
  (forall c, In c moved -> p c = true <-> X (region (e_bounds c))) ->
  forall i, In i (ids (filter p moved)) <-> elive moved i /\ X (rg i).
Proof.
  intros HM i. split.
  - intros H. apply in_map_iff in H as (c & <- & H). apply filter_In in H as [H Hp].
    unfold rg. rewrite ebx_id by (auto using cs_NoDup; apply in_or_app; auto).
    split; [apply elive_in; auto|]. apply HM; auto.
  - intros [H HX]. apply elive_inv in H as (c & H & <-). apply in_map_iff. exists c. split; auto.
    apply filter_In. split; auto. apply HM; auto. unfold rg in HX.
    rewrite ebx_id in HX by (auto using cs_NoDup; apply in_or_app; auto). auto.
Qed.

Ltac unfold_plane c H :=
  unfold B; destruct (plane_region b2 PB) as (R1 & R2 & R3 & R4);
  destruct (plane_region (e_bounds c) H) as (R1' & R2' & R3' & R4');
  rewrite ?R1, ?R2, ?R3, ?R4, ?R1', ?R2', ?R3', ?R4'.
Ltac ext_kept := let c := fresh "c" in let H := fresh "H" in
  intros c H; destruct (cellK c H) as (H' & _ & _);
  unfold north_of, south_of, east_of, west_of, xN, xS, xE, xW;
  rewrite !andb_true_iff, ?qeqb_true, ?qleb_true; unfold_plane c H'; tauto.
Ltac ext_moved := let c := fresh "c" in let H := fresh "H" in
  intros c H; destruct (cellM c H) as (H' & Hin & _); apply not_true_is_false;
  unfold north_of, south_of, east_of, west_of; rewrite !andb_true_iff, ?qeqb_true, ?qleb_true;
  unfold box_in, B in Hin; destruct (plane_region b2 PB) as (R1 & R2 & R3 & R4); rewrite R1, R2, R3, R4 in Hin;
  destruct (plane_region (e_bounds c) H') as (R1' & R2' & R3' & R4'); rewrite R1', R2', R3', R4' in Hin;
  destruct H' as ((?&?&_)&_); intros X; lra.
Lemma extN i : In i (ids (filter (north_of b2) cs)) <-> elive kept i /\ xN B (rg i).
Proof. apply ext_ids; [ext_kept|ext_moved]. Qed.
Lemma extS i : In i (ids (filter (south_of b2) cs)) <-> elive kept i /\ xS B (rg i).
Proof. apply ext_ids; [ext_kept|ext_moved]. Qed.
Lemma extE i : In i (ids (filter (east_of b2) cs)) <-> elive kept i /\ xE B (rg i).
Proof. apply ext_ids; [ext_kept|ext_moved]. Qed.
Lemma extW i : In i (ids (filter (west_of b2) cs)) <-> elive kept i /\ xW B (rg i).
Proof. apply ext_ids; [ext_kept|ext_moved]. Qed.
Ltac int_moved := let c := fresh "c" in let H := fresh "H" in
  intros c H; destruct (cellM c H) as (H' & _ & _);
  unfold top_edge, bottom_edge, left_edge, right_edge; rewrite qeqb_true; unfold_plane c H'; tauto.
Lemma intN i : In i (ids (filter (top_edge b2) moved)) <-> elive moved i /\ (y1 (rg i) == y1 B)%Q.
Proof. apply (int_ids (top_edge b2) (fun a => (y1 a == y1 B)%Q)). int_moved. Qed.
Lemma intS i : In i (ids (filter (bottom_edge b2) moved)) <-> elive moved i /\ (y0 (rg i) == y0 B)%Q.
Proof. apply (int_ids (bottom_edge b2) (fun a => (y0 a == y0 B)%Q)). int_moved. Qed.
Lemma intE i : In i (ids (filter (right_edge b2) moved)) <-> elive moved i /\ (x1 (rg i) == x1 B)%Q.
Proof. apply (int_ids (right_edge b2) (fun a => (x1 a == x1 B)%Q)). int_moved. Qed.
Lemma intW i : In i (ids (filter (left_edge b2) moved)) <-> elive moved i /\ (x0 (rg i) == x0 B)%Q.
Proof. apply (int_ids (left_edge b2) (fun a => (x0 a == x0 B)%Q)). int_moved. Qed.

(** The pairs tied on each side. *)
Definition pairs (X : box -> Prop) (Y : box -> Prop) (i j : Z) : Prop :=
  (elive kept i /\ X (rg i)) /\ (elive moved j /\ Y (rg j)).

Lemma excl i : elive kept i -> elive moved i -> False.
Proof. intros H H'. apply liveK in H. apply liveM in H'. lia. Qed.

(** One tie, with the pairs [P] already present. *)
Lemma tie_step de di ext int (X Y : box -> Prop) P g f :
  (forall i, In i (ids (filter ext cs)) <-> elive kept i /\ X (rg i)) ->
  (forall i, In i (ids (filter int moved)) <-> elive moved i /\ Y (rg i)) ->
  NoDup (map code de) -> NoDup (map code di) ->
  (forall a b d, proper a -> proper b -> X a -> Y b -> lin d a b -> In d de) ->
  (forall a b d, proper a -> proper b -> X a -> Y b -> lin d b a -> In d di) ->
  (forall i j, elive kept i -> X (rg i) -> elive moved j -> Y (rg j) -> ~ P i j /\ ~ P j i) ->
  rep KS g (elive cs) f -> exact_on cs P f ->
  exists g' f', tie (map code de) (map code di) (filter ext cs) (filter int moved) g = Ok g' /\ rep KS g' (elive cs) f' /\
    exact_on cs (fun i j => P i j \/ pairs X Y i j \/ pairs X Y j i) f'.
Proof.
  intros HX HY Nde Ndi F1 F2 NP R E.
  assert (Code : forall l, incl (map code l) dirs).
  { intros l z H. apply in_map_iff in H as (d & <- & _). apply In_dirs_code; eauto. }
  destruct (tie_ok cs cs_NoDup (map code de) (map code di) (filter ext cs) (filter int moved) P g f)
    as (g' & f' & E' & R' & X'); auto.
  - intros c H. apply filter_In in H. tauto.
  - intros c H. apply filter_In in H as [H _]. apply in_or_app. right. exact H.
  - apply NoDup_ids_filter, cs_NoDup.
  - apply NoDup_ids_filter, moved_NoDup.
  - intros i j Hi Hj. apply HX in Hi. apply HY in Hj. apply NP; tauto.
  - intros i Hi Hj. apply HX in Hi. apply HY in Hj. apply (excl i); tauto.
  - intros i j Hi Hj Hd. apply HX in Hi as [Ki Xi]. apply HY in Hj as [Mj Yj].
    apply In_dirs_code in Hd as (d & Hd). rewrite Hd. apply in_map.
    assert (Li : elive cs i) by (apply liveK; auto). assert (Lj : elive cs j) by (apply liveM; auto).
    apply case_lin in Hd; auto. apply (F1 (rg i) (rg j) d); auto using rg_proper.
  - intros i j Hi Hj Hd. apply HX in Hi as [Ki Xi]. apply HY in Hj as [Mj Yj].
    apply In_dirs_code in Hd as (d & Hd). rewrite Hd. apply in_map.
    assert (Li : elive cs i) by (apply liveK; auto). assert (Lj : elive cs j) by (apply liveM; auto).
    apply case_lin in Hd; auto. apply (F2 (rg i) (rg j) d); auto using rg_proper.
  - exists g', f'. split; auto. split; auto. intros i d Li Hd. destruct (X' i d Li Hd) as [Nf If]. split; auto.
    intros j. rewrite If, !HX, !HY. unfold pairs. tauto.
Qed.

Let P0 (i j : Z) : Prop := (elive kept i /\ elive kept j) \/ (elive moved i /\ elive moved j).

Theorem merge_ok : exists m m2',
  merge_mesh m1 m2 = Ok (m, m2') /\ env_inv m /\ em_cells m = kept ++ moved /\
  em_bounds m = em_bounds m1 /\ em_config m = append_config (em_config m1) (em_config m2) /\
  em_cells m2' = moved.
Proof.
  destruct (remove_within_ok m1 b2 I1) as (k & Ek & Ik & Ck & Bk & Fk). change (em_cells k = kept) in Ck.
  pose proof (increment_ids_inv (mx + 1) m2 I2) as I2'.
  assert (C2 : em_cells (increment_ids (mx + 1) m2) = moved) by reflexivity.
  destruct Ik as (_ & _ & _ & f1 & R1 & X1). rewrite Ck in R1, X1.
  destruct I2' as (_ & _ & _ & f2 & R2 & X2). rewrite C2 in R2, X2.
  set (g2 := em_graph (increment_ids (mx + 1) m2)) in *.
  set (g0 := fold_left (fun (g : graph) kv => add_node g (fst kv) (snd kv)) g2 (em_graph k)).
  assert (Eg0 : g0 = em_graph k ++ g2).
  { apply union_graphs; [apply R2|]. intros key H H'. apply R1 in H' as (i & -> & Hi). apply R2 in H as (j & E & Hj).
    apply KS_inj in E. subst. eapply excl; eauto. }
  set (f0 := fun i d => if i <=? mx then f1 i d else f2 i d).
  assert (R0 : rep KS g0 (elive cs) f0).
  { rewrite Eg0. eapply rep_ext; [| |apply (rep_app _ _ _ _ _ _ mx R1 R2)].
    - intros i. symmetry. apply live_cs.
    - reflexivity.
    - intros i H. apply liveK in H. lia.
    - intros i H. apply liveM in H. lia. }
  assert (BxK : forall i, elive kept i -> ebx kept i = ebx cs i).
  { intros i H. apply elive_inv in H as (c & H & <-).
    rewrite !ebx_id; auto using cs_NoDup, kept_NoDup. apply in_or_app; auto. }
  assert (BxM : forall i, elive moved i -> ebx moved i = ebx cs i).
  { intros i H. apply elive_inv in H as (c & H & <-).
    rewrite !ebx_id; auto using cs_NoDup, moved_NoDup. apply in_or_app; auto. }
  assert (X0 : exact_on cs P0 f0).
  { intros i d Hi Hd. unfold f0. apply live_cs in Hi as [Hi|Hi].
    - pose proof (liveK i Hi) as (Hle & _). destruct (Z.leb_spec i mx); [|lia].
      destruct (X1 i d Hi Hd) as [Nf If]. split; auto. intros j. rewrite If. unfold P0, icase. split.
      + intros [Hj E]. rewrite !BxK in E by auto. split; [apply live_cs; auto|]. auto.
      + intros (Hj & E & [[_ Hj']|[Hi' _]]); [|exfalso; eapply excl; eauto]. rewrite !BxK by auto. auto.
    - pose proof (liveM i Hi) as (Hle & _). destruct (Z.leb_spec i mx); [lia|].
      destruct (X2 i d Hi Hd) as [Nf If]. split; auto. intros j. rewrite If. unfold P0, icase. split.
      + intros [Hj E]. rewrite !BxM in E by auto. split; [apply live_cs; auto|]. auto.
      + intros (Hj & E & [[Hi' _]|[_ Hj']]); [exfalso; eapply excl; eauto|]. rewrite !BxM by auto. auto. }
  assert (N0 : forall i j, elive kept i -> elive moved j -> ~ P0 i j /\ ~ P0 j i).
  { unfold P0. intros i j Hi Hj. split; intros [[A A']|[A A']]; first [solve [apply (excl i); auto] | solve [apply (excl j); auto]]. }
  assert (NP : forall (X Y X' Y' : box -> Prop) i j, elive kept i -> X (rg i) -> elive moved j -> Y (rg j) ->
     (forall a, proper a -> X a -> X' a -> False) -> ~ pairs X' Y' i j /\ ~ pairs X' Y' j i).
  { unfold pairs. intros X Y X' Y' i j Hi HX Hj HY Hex. split.
    - intros [[_ A] _]. apply (Hex (rg i)); auto. apply rg_proper, liveK; auto.
    - intros [[A _] _]. apply (excl j); auto. }
  assert (PrB : proper B) by (apply plane_proper; auto).
  (* north *)
  destruct (tie_step [dS; dSW; dSE] [dN; dNW; dNE] (north_of b2) (top_edge b2) (xN B) (fun a => (y1 a == y1 B)%Q)
    P0 g0 f0 extN intN) as (gN & fN & EN & RN & XN); auto.
  1,2: repeat constructor; cbn; intuition discriminate.
  1: intros a b d Pa Pb Xa Yb Hl; destruct (dN_int B a b d Pa Pb Xa Yb Hl) as [->|[->| ->]]; cbn; auto.
  1: intros a b d Pa Pb Xa Yb Hl; destruct (dN_ext B a b d Pa Pb Xa Yb Hl) as [->|[->| ->]]; cbn; auto.
  match type of XN with exact_on _ ?P _ => set (PN := P) in XN end.
  (* south *)
  destruct (tie_step [dN; dNW; dNE] [dS; dSW; dSE] (south_of b2) (bottom_edge b2) (xS B) (fun a => (y0 a == y0 B)%Q)
    PN gN fN extS intS) with (6 := RN) (7 := XN) as (gS & fS & ES & RS & XS).
  1,2: repeat constructor; cbn; intuition discriminate.
  1: intros a b d Pa Pb Xa Yb Hl; destruct (dS_int B a b d Pa Pb Xa Yb Hl) as [->|[->| ->]]; cbn; auto.
  1: intros a b d Pa Pb Xa Yb Hl; destruct (dS_ext B a b d Pa Pb Xa Yb Hl) as [->|[->| ->]]; cbn; auto.
  1: { intros i j Hi HX Hj HY. destruct (N0 i j Hi Hj) as [A1 A2].
       destruct (NP (xS B) (fun a => (y0 a == y0 B)%Q) (xN B) (fun a => (y1 a == y1 B)%Q) i j Hi HX Hj HY) as [A3 A4];
       [unfold proper, xS, xN in *; intros; lra|]. unfold PN. tauto. }
  match type of XS with exact_on _ ?P _ => set (PS := P) in XS end.
  (* east *)
  destruct (tie_step [dW; dSW; dNW] [dE; dSE; dNE] (east_of b2) (right_edge b2) (xE B) (fun a => (x1 a == x1 B)%Q)
    PS gS fS extE intE) with (6 := RS) (7 := XS) as (gE & fE & EE & RE & XE).
  1,2: repeat constructor; cbn; intuition discriminate.
  1: intros a b d Pa Pb Xa Yb Hl; destruct (dE_int B a b d Pa Pb Xa Yb Hl) as [->|[->| ->]]; cbn; auto.
  1: intros a b d Pa Pb Xa Yb Hl; destruct (dE_ext B a b d Pa Pb Xa Yb Hl) as [->|[->| ->]]; cbn; auto.
  1: { intros i j Hi HX Hj HY. destruct (N0 i j Hi Hj) as [A1 A2].
       destruct (NP (xE B) (fun a => (x1 a == x1 B)%Q) (xN B) (fun a => (y1 a == y1 B)%Q) i j Hi HX Hj HY) as [A3 A4];
       [unfold proper, xE, xN in *; intros; lra|].
       destruct (NP (xE B) (fun a => (x1 a == x1 B)%Q) (xS B) (fun a => (y0 a == y0 B)%Q) i j Hi HX Hj HY) as [A5 A6];
       [unfold proper, xE, xS in *; intros; lra|]. unfold PS, PN. tauto. }
  match type of XE with exact_on _ ?P _ => set (PE := P) in XE end.
  (* west *)
  destruct (tie_step [dE; dSE; dNE] [dW; dSW; dNW] (west_of b2) (left_edge b2) (xW B) (fun a => (x0 a == x0 B)%Q)
    PE gE fE extW intW) with (6 := RE) (7 := XE) as (gW & fW & EW & RW & XW).
  1,2: repeat constructor; cbn; intuition discriminate.
  1: intros a b d Pa Pb Xa Yb Hl; destruct (dW_int B a b d Pa Pb Xa Yb Hl) as [->|[->| ->]]; cbn; auto.
  1: intros a b d Pa Pb Xa Yb Hl; destruct (dW_ext B a b d Pa Pb Xa Yb Hl) as [->|[->| ->]]; cbn; auto.
  1: { intros i j Hi HX Hj HY. destruct (N0 i j Hi Hj) as [A1 A2].
       destruct (NP (xW B) (fun a => (x0 a == x0 B)%Q) (xN B) (fun a => (y1 a == y1 B)%Q) i j Hi HX Hj HY) as [A3 A4];
       [unfold proper, xW, xN in *; intros; lra|].
       destruct (NP (xW B) (fun a => (x0 a == x0 B)%Q) (xS B) (fun a => (y0 a == y0 B)%Q) i j Hi HX Hj HY) as [A5 A6];
       [unfold proper, xW, xS in *; intros; lra|].
       destruct (NP (xW B) (fun a => (x0 a == x0 B)%Q) (xE B) (fun a => (x1 a == x1 B)%Q) i j Hi HX Hj HY) as [A7 A8];
       [unfold proper, xW, xE in *; intros; lra|]. unfold PE, PS, PN. tauto. }
  exists (mkEM (em_bounds k) cs gW (append_config (em_config m1) (em_config m2))),
         (set_graph (increment_ids (mx + 1) m2) (shared_maps g2 gW)).
  split; [|split; [|split; [|split; [|split]]]]; auto.
  - unfold merge_mesh. rewrite V. cbn [bind negb]. fold b2. rewrite Ek. cbn [bind]. cbv zeta.
    rewrite Ck. change (get_max_cellbox_id kept) with mx. rewrite !C2.
    change (kept ++ moved) with cs. fold g2. fold g0.
    unfold tie_northern, tie_southern, tie_eastern, tie_western.
    change (map code [dS; dSW; dSE]) with [south; south_west; south_east] in *.
    change (map code [dN; dNW; dNE]) with [north; north_west; north_east] in *.
    change (map code [dW; dSW; dNW]) with [west; south_west; north_west] in *.
    change (map code [dE; dSE; dNE]) with [east; south_east; north_east] in *.
    rewrite EN. cbn [bind]. rewrite ES. cbn [bind]. rewrite EE. cbn [bind]. rewrite EW. reflexivity.
  - split; [|split; [|split]]; cbn [em_cells em_graph].
    + apply cs_NoDup.
    + apply cs_plane.
    + intros c c' Hc Hc' N. rewrite <- (ebx_id cs c cs_NoDup Hc), <- (ebx_id cs c' cs_NoDup Hc').
      apply rg_sep; auto using elive_in.
    + exists fW. split; auto. intros i d Hi Hd. destruct (XW i d Hi Hd) as [Nf If]. split; auto.
      intros j. rewrite If. split; [tauto|]. intros [Hj E]. split; auto. split; auto. unfold PE, PS, PN, P0.
      apply In_dirs_code in Hd as (dd & ->). apply case_lin in E; auto.
      pose proof (rg_proper i Hi) as Pi. pose proof (rg_proper j Hj) as Pj.
      pose proof Hi as Hi'. pose proof Hj as Hj'.
      apply live_cs in Hi' as [Hi'|Hi']; apply live_cs in Hj' as [Hj'|Hj'].
      * tauto.
      * destruct (ext_int B (rg i) (rg j) dd Pi Pj PrB) as [[A A']|[[A A']|[[A A']|[A A']]]]; auto;
          try (apply liveK; auto; fail); try (apply liveM; auto; fail); unfold pairs; tauto.
      * assert (E' : lin (opposite dd) (rg j) (rg i)).
        { apply (contact_sym false) in E. exact E. }
        destruct (ext_int B (rg j) (rg i) (opposite dd) Pj Pi PrB) as [[A A']|[[A A']|[[A A']|[A A']]]]; auto;
          try (apply liveK; auto; fail); try (apply liveM; auto; fail); unfold pairs; tauto.
      * tauto.
Qed.
End Merge.

(** ** Consequences *)
Lemma Qfloor_int a k : (a == inject_Z k)%Q -> Qfloor a = k.
Proof. intros H. rewrite (Qfloor_comp _ _ H). apply Qfloor_Z. Qed.
Lemma qmod_multiple a b k : (0 < b)%Q -> (a == inject_Z k * b)%Q -> (qmod a b == 0)%Q.
Proof.
  intros Hb H. unfold qmod. rewrite (Qfloor_int (a / b) k); [lra|].
  rewrite H. field. lra.
Qed.

Theorem validate_merge_spec m1 m2 : (0 < c_width (em_config m1))%Q -> (0 < c_height (em_config m1))%Q ->
  plane_bounds (em_bounds m2) ->
  (validate_merge m1 m2 = Ok true <->
   grid_aligned (em_bounds m1) (c_width (em_config m1)) (c_height (em_config m1)) (em_bounds m2)) /\
  (exists r, validate_merge m1 m2 = Ok r).
Proof.
  intros Hw Hh P. split; [split|].
  - apply validate_aligned; auto.
  - intros (i & i' & j & j' & E1 & E2 & E3 & E4). unfold validate_merge. cbv zeta.
    set (w := c_width (em_config m1)) in *. set (h := c_height (em_config m1)) in *.
    assert (Hgt : (get_height (em_bounds m2) == lat_max (em_bounds m2) - lat_min (em_bounds m2))%Q) by (unfold get_height; lra).
    destruct P as ((P1 & P2 & _) & _).
    pose proof (regular_width (em_bounds m2) (conj P1 P2)) as W.
    assert (Hw0 : qeqb w 0 = false) by (apply qeqb_false; lra).
    assert (Hh0 : qeqb h 0 = false) by (apply qeqb_false; lra).
    assert (M1 : qeqb (qmod (get_height (em_bounds m2)) h) 0 = true).
    { apply qeqb_true, (qmod_multiple _ _ (j' - j)); auto. unfold Z.sub. rewrite inject_Z_plus, inject_Z_opp. lra. }
    assert (M2 : qeqb (qmod (get_width (em_bounds m2)) w) 0 = true).
    { apply qeqb_true, (qmod_multiple _ _ (i' - i)); auto. unfold Z.sub. rewrite inject_Z_plus, inject_Z_opp. lra. }
    assert (M3 : qeqb (qmod (lat_min (em_bounds m1) - lat_min (em_bounds m2)) h) 0 = true).
    { apply qeqb_true, (qmod_multiple _ _ (- j)); auto. rewrite inject_Z_opp. lra. }
    assert (M4 : qeqb (qmod (long_min (em_bounds m1) - long_min (em_bounds m2)) w) 0 = true).
    { apply qeqb_true, (qmod_multiple _ _ (- i)); auto. rewrite inject_Z_opp. lra. }
    rewrite Hw0, Hh0, M1, M2, M3, M4. reflexivity.
  - unfold validate_merge. cbv zeta.
    destruct (qeqb_spec (c_height (em_config m1)) 0); [lra|].
    destruct (qeqb_spec (c_width (em_config m1)) 0); [lra|].
    repeat (destruct (negb _); [eauto|]). eauto.
Qed.

Lemma mergeable_ok m1 m2 : mergeable m1 m2 -> validate_merge m1 m2 = Ok true ->
  exists m m2', merge_mesh m1 m2 = Ok (m, m2') /\ env_inv m /\
    em_cells m = kept m1 m2 ++ moved m1 m2 /\ em_bounds m = em_bounds m1 /\
    em_config m = append_config (em_config m1) (em_config m2) /\ em_cells m2' = moved m1 m2.
Proof.
  intros (S1 & S2 & Pos & PB & In2 & (Hw & Hh) & G) V. apply merge_ok; auto.
  - apply sound_inv; auto.
  - apply sound_inv; auto.
  - intros c Hc. apply (grid_nostraddle (em_bounds m1) (c_width (em_config m1)) (c_height (em_config m1))); auto.
    + apply S1; auto.
    + apply validate_aligned; auto.
Qed.

Lemma inside_within b c : within_bounds b c = true <-> inside b (e_bounds c).
Proof. unfold within_bounds, inside. rewrite !andb_true_iff, !qleb_true. tauto. Qed.

Lemma moved_renumbered m1 m2 : exists inc, 0 < inc /\ Forall2 (renumbered inc) (em_cells m2) (moved m1 m2) /\
  (forall c, In c (kept m1 m2) -> e_id c < inc).
Proof.
  exists (get_max_cellbox_id (kept m1 m2) + 1). split; [pose proof (max_id_pos (kept m1 m2)); lia|]. split.
  - unfold moved. generalize (em_cells m2) as l.
    induction l as [|x l IH]; cbn [map]; constructor; auto.
    split; [reflexivity|split; [reflexivity|]]. intros n Hn. cbn [increment_cell e_data]. rewrite sget_sset.
    destruct (String.eqb_spec n "id"); congruence.
  - intros c Hc. apply max_id in Hc. lia.
Qed.

(** Merging a mesh that lies inside keeps a tiling. *)
Lemma merge_tiles m1 m2 whole : mergeable m1 m2 -> validate_merge m1 m2 = Ok true ->
  env_tiles whole (em_cells m1) -> env_tiles (region (em_bounds m2)) (em_cells m2) ->
  (forall x y, mem (region (em_bounds m2)) x y -> mem whole x y) ->
  env_tiles whole (kept m1 m2 ++ moved m1 m2).
Proof.
  intros (S1 & S2 & Pos & PB & In2 & (Hw & Hh) & G) V (T1 & T2 & T3) (U1 & U2 & U3) Sub.
  assert (Mv : forall c, In c (moved m1 m2) -> exists x, In x (em_cells m2) /\ e_bounds c = e_bounds x /\
     e_id c = e_id x + (get_max_cellbox_id (kept m1 m2) + 1)).
  { intros c H. apply in_map_iff in H as (x & <- & H). exists x. split; auto. }
  assert (KM : forall c c' x y, In c (kept m1 m2) -> In c' (moved m1 m2) ->
     mem (region (e_bounds c)) x y -> mem (region (e_bounds c')) x y -> False).
  { intros c c' x y Hc Hc' M M'. apply kept_in in Hc as [Hc W].
    assert (Pc : plane_bounds (e_bounds c)) by (apply S1; auto).
    assert (NSt : nostraddle (region (em_bounds m2)) (region (e_bounds c))).
    { apply (grid_nostraddle (em_bounds m1) (c_width (em_config m1)) (c_height (em_config m1))); auto. apply validate_aligned; auto. }
    assert (NB : ~ box_in (region (em_bounds m2)) (region (e_bounds c))).
    { rewrite <- (within_box m2); auto. congruence. }
    destruct (Mv c' Hc') as (z & Hz & Ez & _). rewrite Ez in M'.
    pose proof (U2 z x y Hz M') as MB. unfold mem, nostraddle, box_in in *. lra. }
  split; [|split].
  - intros x y M. destruct (T1 x y M) as (c & Hc & Mc). destruct (within_bounds (em_bounds m2) c) eqn:W.
    + apply (within_box m2) in W; auto; [|apply S1; auto].
      destruct (U1 x y) as (z & Hz & Mz). { unfold mem, box_in in *. lra. }
      exists (increment_cell (get_max_cellbox_id (kept m1 m2) + 1) z). split; [|exact Mz].
      apply in_or_app; right. apply in_map; auto.
    + exists c. split; auto. apply in_or_app; left. apply kept_in; auto.
  - intros c x y H M. apply in_app_or in H as [H|H].
    + apply kept_in in H as [H _]. eapply T2; eauto.
    + destruct (Mv c H) as (z & Hz & Ez & _). rewrite Ez in M. apply Sub. eapply U2; eauto.
  - intros c c' x y H H' M M'. apply in_app_or in H as [H|H]; apply in_app_or in H' as [H'|H'].
    + apply kept_in in H as [H _]. apply kept_in in H' as [H' _]. eapply T3; eauto.
    + exfalso. eapply KM; eauto.
    + exfalso. apply (KM c' c x y); auto.
    + destruct (Mv c H) as (z & Hz & Ez & Iz). destruct (Mv c' H') as (z' & Hz' & Ez' & Iz').
      rewrite Ez in M. rewrite Ez' in M'. rewrite Iz, Iz', (U3 z z' x y); auto.
Qed.

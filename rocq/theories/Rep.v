(** Abstract view of the neighbour graph: the graph dictionary represents a
    function from (node, direction) to lists. *)
From Verif Require Import Base Geo Graph Dict.
Open Scope Z_scope.

Definition dirs : list Z := [1; 2; 3; 4; -1; -2; -3; -4].

Definition rep_map (K : Z -> pykey) (m : nmap) (h : Z -> list Z) : Prop :=
  NoDup (dkeys m) /\
  (forall k, In k (dkeys m) <-> exists d, k = K d /\ In d dirs) /\
  (forall d, In d dirs -> dget_opt m (K d) = Some (h d)).

(** [rep K g L f]: the keys of [g] are exactly the [K i] with [L i], every node
    has exactly the eight directions, and node i lists [f i d] under d. *)
Definition rep (K : Z -> pykey) (g : graph) (L : Z -> Prop) (f : Z -> Z -> list Z) : Prop :=
  NoDup (dkeys g) /\
  (forall k, In k (dkeys g) <-> exists i, k = K i /\ L i) /\
  (forall i, L i -> exists m, dget_opt g (K i) = Some m /\ rep_map K m (f i)).

Definition upd (f : Z -> Z -> list Z) (i d : Z) (l : list Z) : Z -> Z -> list Z :=
  fun i' d' => if (i' =? i) && (d' =? d) then l else f i' d'.

Section Rep.
Variable K : Z -> pykey.
Hypothesis K_inj : forall a b, K a = K b -> a = b.

Lemma K_eqb a b : key_eqb (K a) (K b) = (a =? b).
Proof.
  destruct (key_eqb_spec (K a) (K b)) as [E|N], (Z.eqb_spec a b); auto.
  - apply K_inj in E. congruence.
  - congruence.
Qed.

Lemma rep_ext g L L' f f' :
  (forall i, L i <-> L' i) -> (forall i d, L i -> In d dirs -> f i d = f' i d) ->
  rep K g L f -> rep K g L' f'.
Proof.
  intros HL Hf (N & Hk & Hm). repeat split; auto.
  - intros H. apply Hk in H. destruct H as (i & -> & H). exists i. split; auto. apply HL; auto.
  - intros (i & -> & H). apply Hk. exists i. split; auto. apply HL; auto.
  - intros i Hi. apply HL in Hi. destruct (Hm i Hi) as (m & E & (N' & Hk' & Hd)).
    exists m. split; auto. split; [|split]; auto. intros d D. rewrite <- Hf; auto.
Qed.

Lemma rep_same g (L : Z -> Prop) (f f' : Z -> Z -> list Z) :
  (forall i d, L i -> In d dirs -> f i d = f' i d) -> rep K g L f -> rep K g L f'.
Proof. intros H. apply rep_ext; auto. tauto. Qed.

Lemma rep_get g L f i d : rep K g L f -> L i -> In d dirs -> get_neighbours g (K i) (K d) = Ok (f i d).
Proof.
  intros (N & Hk & Hm) Hi Hd. destruct (Hm i Hi) as (m & E & (N' & Hk' & Hdd)).
  unfold get_neighbours, dget. rewrite E. cbn. unfold dget. rewrite (Hdd d Hd). auto.
Qed.

Lemma rep_update g L f i d l : rep K g L f -> L i -> In d dirs ->
  exists g', update_neighbour g (K i) (K d) l = Ok g' /\ rep K g' L (upd f i d l).
Proof.
  intros (N & Hk & Hm) Hi Hd. destruct (Hm i Hi) as (m & E & (N' & Hk' & Hdd)).
  unfold update_neighbour, dget. rewrite E. cbn. eexists; split; [reflexivity|].
  assert (Ik : In (K i) (dkeys g)) by (apply Hk; eauto).
  assert (Dk : In (K d) (dkeys m)) by (apply Hk'; eauto).
  split; [|split].
  - rewrite dset_keys_in; auto.
  - intros k. rewrite dset_keys_in; auto.
  - intros j Hj. rewrite dget_dset, K_eqb. destruct (Z.eqb_spec j i) as [->|Nj].
    + eexists; split; [reflexivity|]. split; [|split].
      * rewrite dset_keys_in; auto.
      * intros k. rewrite dset_keys_in; auto.
      * intros d' Hd'. rewrite dget_dset, K_eqb. unfold upd. rewrite Z.eqb_refl. cbn.
        destruct (d' =? d); auto.
    + destruct (Hm j Hj) as (m' & E' & (N'' & Hk'' & Hdd')).
      exists m'. split; auto. split; [|split]; auto. intros d' Hd'. unfold upd.
      destruct (Z.eqb_spec j i); [congruence|]. cbn. auto.
Qed.

Lemma rep_add g L f i d x : rep K g L f -> L i -> In d dirs ->
  exists g', add_neighbour g (K i) (K d) x = Ok g' /\ rep K g' L (upd f i d (f i d ++ [x])).
Proof.
  intros R Hi Hd. unfold add_neighbour. rewrite (rep_get _ _ _ _ _ R Hi Hd). cbn.
  apply rep_update; auto.
Qed.

Lemma rep_remove g L f i d x : rep K g L f -> L i -> In d dirs -> NoDup (f i d) -> In x (f i d) ->
  exists g', remove_neighbour g (K i) (K d) x = Ok g' /\ rep K g' L (upd f i d (rem x (f i d))).
Proof.
  intros R Hi Hd N Hx. unfold remove_neighbour. rewrite (rep_get _ _ _ _ _ R Hi Hd). cbn.
  rewrite lremove_rem by auto. cbn. apply rep_update; auto.
Qed.

Lemma rep_add_node g L f i m h : rep K g L f -> ~ L i -> rep_map K m h ->
  rep K (add_node g (K i) m) (fun j => j = i \/ L j) (fun j d => if j =? i then h d else f j d).
Proof.
  intros (N & Hk & Hm) Hi Rm. unfold add_node. split; [|split].
  - apply dset_nodup; auto.
  - intros k. rewrite dset_keys, Hk. split.
    + intros [->|(j & -> & Hj)]; eauto.
    + intros (j & -> & [->|Hj]); eauto.
  - intros j Hj. rewrite dget_dset, K_eqb. destruct (Z.eqb_spec j i) as [->|Nj].
    + eauto.
    + destruct Hj; [congruence|]. auto.
Qed.

Lemma rep_remove_node g L f i : rep K g L f -> L i ->
  exists g', remove_node g (K i) = Ok g' /\ rep K g' (fun j => L j /\ j <> i) f.
Proof.
  intros (N & Hk & Hm) Hi. unfold remove_node, dpop.
  destruct (Hm i Hi) as (m & -> & _). eexists; split; [reflexivity|]. split; [|split].
  - apply filter_nodup_keys; auto.
  - intros k. rewrite <- dget_keys.
    setoid_rewrite dget_filter. split.
    + intros (v & E). destruct (key_eqb_spec k (K i)); [discriminate|].
      assert (I : In k (dkeys g)) by (apply dget_keys; eauto).
      apply Hk in I. destruct I as (j & -> & Hj). exists j. split; auto. split; auto. congruence.
    + intros (j & -> & Hj & Nj). destruct (Hm j Hj) as (m' & E & _). exists m'.
      rewrite K_eqb. destruct (Z.eqb_spec j i); [congruence|]. auto.
  - intros j (Hj & Nj). rewrite dget_filter, K_eqb. destruct (Z.eqb_spec j i); [congruence|]. auto.
Qed.

Lemma rep_functional g L f f' i d : rep K g L f -> rep K g L f' -> L i -> In d dirs -> f i d = f' i d.
Proof.
  intros R R' Hi Hd. pose proof (rep_get _ _ _ _ _ R Hi Hd). pose proof (rep_get _ _ _ _ _ R' Hi Hd).
  congruence.
Qed.
End Rep.

Lemma KI_inj a b : KI a = KI b -> a = b. Proof. congruence. Qed.
Lemma KS_inj a b : KS a = KS b -> a = b. Proof. congruence. Qed.

(** A map literal. *)
Lemma rep_nmap8_KI (ne e se s sw w nw n : list Z) (m : nmap) :
  m = [ (KI 1, ne); (KI 2, e); (KI 3, se); (KI 4, s); (KI (-1), sw); (KI (-2), w); (KI (-3), nw); (KI (-4), n) ] ->
  rep_map KI m (fun d => match dget_opt m (KI d) with Some l => l | None => [] end).
Proof.
  intros ->. split; [|split].
  - cbn. repeat constructor; cbn; intuition discriminate.
  - intros k. cbn. split.
    + intros H. repeat (destruct H as [H|H]; [subst; eexists; split; [reflexivity|cbn; tauto]|]). tauto.
    + intros (d & -> & H). repeat (destruct H as [H|H]; [subst; tauto|]). tauto.
  - intros d H. cbn in H. repeat (destruct H as [H|H]; [subst; reflexivity|]). tauto.
Qed.

(** One step of [remove_node_from_neighbours] works for int-keyed and for
    string-keyed graphs. *)
Lemma In_dirs_opp d : In d dirs -> In (- d) dirs.
Proof. cbn. intuition lia. Qed.

Lemma remove_from_one_KI g L f c d i : rep KI g L f -> L i -> In d dirs ->
  NoDup (f i (- d)) -> In c (f i (- d)) ->
  exists g', remove_from_one (KI c) d g i = Ok g' /\ rep KI g' L (upd f i (- d) (rem c (f i (- d)))).
Proof.
  intros R Hi Hd N Hc. unfold remove_from_one, remove_neighbour_key.
  destruct (rep_remove KI KI_inj g L f i (- d) c R Hi (In_dirs_opp _ Hd) N Hc) as (g' & E & R').
  rewrite E. eauto.
Qed.

Lemma rep_KS_miss g L f i d : rep KS g L f -> get_neighbours g (KI i) d = Err KeyError.
Proof.
  intros (N & Hk & _). unfold get_neighbours, dget.
  replace (dget_opt g (KI i)) with (@None nmap); auto. symmetry. apply dget_none.
  intro H. apply Hk in H. destruct H as (? & ? & _). discriminate.
Qed.
Lemma rep_KS_miss_dir g L f i d : rep KS g L f -> L i -> get_neighbours g (KS i) (KI d) = Err KeyError.
Proof.
  intros (N & Hk & Hm) Hi. destruct (Hm i Hi) as (m & E & (N' & Hk' & _)).
  unfold get_neighbours, dget. rewrite E. cbn. unfold dget.
  replace (dget_opt m (KI d)) with (@None (list Z)); auto. symmetry. apply dget_none.
  intro H. apply Hk' in H. destruct H as (? & ? & _). discriminate.
Qed.

Lemma remove_from_one_KS g L f c d i : rep KS g L f -> L i -> In d dirs ->
  NoDup (f i (- d)) -> In c (f i (- d)) ->
  exists g', remove_from_one (KS c) d g i = Ok g' /\ rep KS g' L (upd f i (- d) (rem c (f i (- d)))).
Proof.
  intros R Hi Hd N Hc. unfold remove_from_one, remove_neighbour_key.
  rewrite (rep_KS_miss _ _ _ _ _ R). cbn.
  destruct (rep_remove KS KS_inj g L f i (- d) c R Hi (In_dirs_opp _ Hd) N Hc) as (g' & E & R').
  rewrite E. eauto.
Qed.

Definition remove_all (f : Z -> Z -> list Z) (l : list Z) (c d : Z) : Z -> Z -> list Z :=
  fun i' d' => if existsb (Z.eqb i') l && (d' =? - d) then rem c (f i' d') else f i' d'.

Lemma existsb_In i l : existsb (Z.eqb i) l = true <-> In i l.
Proof.
  rewrite existsb_exists. split.
  - intros (x & Hx & E). apply Z.eqb_eq in E. subst; auto.
  - intros H. exists i. split; auto. apply Z.eqb_refl.
Qed.
Lemma existsb_app_one i l x : existsb (Z.eqb i) (l ++ [x]) = existsb (Z.eqb i) l || (i =? x).
Proof. rewrite existsb_app. cbn. rewrite orb_false_r. auto. Qed.

Section RemoveAll.
Variable K : Z -> pykey.
Hypothesis one : forall g L f c d i, rep K g L f -> L i -> In d dirs ->
  NoDup (f i (- d)) -> In c (f i (- d)) ->
  exists g', remove_from_one (K c) d g i = Ok g' /\ rep K g' L (upd f i (- d) (rem c (f i (- d)))).

Lemma remove_loop g L f c d l : rep K g L f -> In d dirs -> NoDup l ->
  (forall i, In i l -> L i /\ NoDup (f i (- d)) /\ In c (f i (- d))) ->
  exists g', foldM (remove_from_one (K c) d) g l = Ok g' /\ rep K g' L (remove_all f l c d).
Proof.
  intros R Hd N H.
  apply (foldM_inv (fun pre g => rep K g L (remove_all f pre c d))).
  - eapply rep_ext; [| |exact R]; auto. tauto.
  - intros pre x post s El Rs. subst l.
    destruct (H x) as (Lx & Nx & Cx). { apply in_or_app; cbn; auto. }
    assert (Nin : existsb (Z.eqb x) pre = false).
    { destruct (existsb (Z.eqb x) pre) eqn:E; auto. apply existsb_In in E.
      exfalso. apply NoDup_remove_2 in N. apply N. apply in_or_app; auto. }
    assert (Ex : remove_all f pre c d x (- d) = f x (- d)).
    { unfold remove_all. rewrite Nin. auto. }
    destruct (one s L _ c d x Rs Lx Hd) as (g' & E & R').
    + rewrite Ex; auto.
    + rewrite Ex; auto.
    + exists g'. split; auto. eapply rep_ext; [| |exact R']; [tauto|].
      intros i d' _ _. unfold upd. rewrite Ex. unfold remove_all. rewrite existsb_app_one.
      destruct (Z.eqb_spec i x), (Z.eqb_spec d' (- d)); subst; cbn; rewrite ?Nin, ?orb_true_r, ?orb_false_r, ?andb_false_r; auto.
Qed.
End RemoveAll.

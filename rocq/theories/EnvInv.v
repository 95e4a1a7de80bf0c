(** EnvironmentMesh.split_and_replace keeps a loaded regional mesh in order. *)
From Verif Require Import Base Geo Graph Cell Builder Env Spec MeshSpec EnvSpec QLib CaseProofs SplitGeo Dict Rep SplitCore Stage BuilderSplit Invariant EnvSplit.
Open Scope Z_scope.

(** ** Lists of cells with distinct ids *)
Definition ids (cs : list ecell) : list Z := map e_id cs.
Definition elive (cs : list ecell) (i : Z) : Prop := In i (ids cs).
Definition ebx (cs : list ecell) (i : Z) : boundary :=
  match find (fun c => e_id c =? i) cs with Some c => e_bounds c | None => default_b end.

Lemma find_id cs c : NoDup (ids cs) -> In c cs -> find (fun x => e_id x =? e_id c) cs = Some c.
Proof.
  induction cs as [|x cs IH]; [intros _ []|]. cbn. intros N H. inversion_clear N as [|? ? Nx Ncs].
  destruct (Z.eqb_spec (e_id x) (e_id c)) as [E|E].
  - destruct H as [->|H]; auto. exfalso. apply Nx. rewrite E. apply in_map; auto.
  - destruct H as [->|H]; [congruence|]. auto.
Qed.
Lemma get_cellbox_id cs c : NoDup (ids cs) -> In c cs -> get_cellbox cs (e_id c) = Ok c.
Proof. intros N H. unfold get_cellbox. rewrite find_id; auto. Qed.
Lemma get_cellbox_ok cs i c : get_cellbox cs i = Ok c -> In c cs /\ e_id c = i.
Proof.
  unfold get_cellbox. destruct (find _ cs) as [x|] eqn:E; [|discriminate]. intros H.
  injection H as <-. apply find_some in E as [E1 E2]. apply Z.eqb_eq in E2. auto.
Qed.
Lemma ebx_id cs c : NoDup (ids cs) -> In c cs -> ebx cs (e_id c) = e_bounds c.
Proof. intros N H. unfold ebx. rewrite find_id; auto. Qed.
Lemma elive_inv cs i : elive cs i -> exists c, In c cs /\ e_id c = i.
Proof. intros H. apply in_map_iff in H as (c & E & H). eauto. Qed.
Lemma elive_in cs c : In c cs -> elive cs (e_id c).
Proof. apply in_map. Qed.
Lemma same_id cs c c' : NoDup (ids cs) -> In c cs -> In c' cs -> e_id c = e_id c' -> c = c'.
Proof.
  intros N H H' E. pose proof (find_id cs c N H) as F. rewrite E, (find_id cs c' N H') in F. congruence.
Qed.

Lemma max_ge cs : forall a, a <= fold_left (fun mx c => if mx <? e_id c then e_id c else mx) cs a /\
  forall c, In c cs -> e_id c <= fold_left (fun mx c => if mx <? e_id c then e_id c else mx) cs a.
Proof.
  induction cs as [|x cs IH]; intros a; cbn; [split; [lia|intros _ []]|].
  destruct (IH (if a <? e_id x then e_id x else a)) as [H1 H2].
  destruct (Z.ltb_spec a (e_id x)); (split; [lia|]; intros c [<-|H']; [lia|auto]).
Qed.
Lemma max_id cs c : In c cs -> e_id c <= get_max_cellbox_id cs.
Proof. apply (proj2 (max_ge cs 0)). Qed.
Lemma max_id_pos cs : 0 <= get_max_cellbox_id cs.
Proof. apply (proj1 (max_ge cs 0)). Qed.

Lemma remove_first_app l1 c l2 : NoDup (ids (l1 ++ c :: l2)) ->
  remove_first (e_id c) (l1 ++ c :: l2) = l1 ++ l2.
Proof.
  induction l1 as [|x l1 IH]; cbn; intros N.
  - rewrite Z.eqb_refl. auto.
  - inversion_clear N as [|? ? Nx N']. destruct (Z.eqb_spec (e_id x) (e_id c)) as [E|E].
    + exfalso. apply Nx. rewrite E. unfold ids. rewrite map_app. apply in_or_app. right; left; auto.
    + f_equal. auto.
Qed.
Lemma remove_first_in cs c x : NoDup (ids cs) -> In c cs ->
  (In x (remove_first (e_id c) cs) <-> In x cs /\ e_id x <> e_id c).
Proof.
  intros N H. apply in_split in H as (l1 & l2 & ->). rewrite remove_first_app by auto.
  unfold ids in N. rewrite map_app in N. cbn in N. apply NoDup_remove in N as [N1 N2].
  rewrite <- map_app in N2. split.
  - intros Hx. split.
    + rewrite !in_app_iff in *. cbn. tauto.
    + intros E. apply N2. rewrite <- E. apply in_map; auto.
  - intros [Hx E]. rewrite !in_app_iff in *. cbn in Hx. destruct Hx as [?|[<-|?]]; tauto.
Qed.
Lemma remove_first_NoDup cs c : NoDup (ids cs) -> In c cs -> NoDup (ids (remove_first (e_id c) cs)).
Proof.
  intros N H. apply in_split in H as (l1 & l2 & ->). rewrite remove_first_app by auto.
  unfold ids in *. rewrite map_app in *. cbn in N. apply NoDup_remove in N as [N1 N2]. auto.
Qed.

(** ** Quarters of a plane boundary *)
Lemma plane_ok b : plane_bounds b <-> cell_ok false b /\ times_ok (time_range b).
Proof.
  unfold plane_bounds, cell_ok, regular. split.
  - intros ((A & B & C & D) & T). repeat split; auto. discriminate.
  - intros (((A & B) & C & D & _) & T). repeat split; auto.
Qed.

Lemma boundary_split_ok b : plane_bounds b ->
  exists sw nw se ne, boundary_split b = Ok [sw; nw; se; ne] /\
    (plane_bounds sw /\ plane_bounds nw /\ plane_bounds se /\ plane_bounds ne) /\
    (quarter qSW (region b) (region sw) /\ quarter qNW (region b) (region nw) /\
     quarter qSE (region b) (region se) /\ quarter qNE (region b) (region ne)) /\
    (time_range sw = time_range b /\ time_range nw = time_range b /\
     time_range se = time_range b /\ time_range ne = time_range b).
Proof.
  intros ((H1 & H2 & H3 & H4) & Ht).
  pose proof (regular_width b (conj H1 H2)) as W.
  pose proof (regular_x1 b (conj H1 H2)) as X1.
  assert (Hh : (get_height b == lat_max b - lat_min b)%Q) by (unfold get_height; lra).
  unfold boundary_split. cbv zeta.
  pose proof (half_lin (get_width b)) as Hw2. pose proof (half_lin (get_height b)) as Hh2.
  generalize dependent (get_width b / 2)%Q. intros hw Hw2.
  generalize dependent (get_height b / 2)%Q. intros hh Hh2.
  rewrite !Boundary_ok by (auto; lra). cbn [bind].
  do 4 eexists. split; [reflexivity|].
  split; [|split; [|cbn; auto]].
  - unfold plane_bounds; cbn [long_min long_max lat_min lat_max time_range].
    repeat split; auto; lra.
  - assert (X : forall la lb oa ob t, (oa < ob)%Q -> x1 (region (mkB la lb oa ob t)) = ob).
    { intros. cbn. destruct (qltb_spec oa ob); auto. lra. }
    unfold quarter, xmid, ymid. rewrite !X, X1 by lra. cbn [x0 y0 y1 region lat_min lat_max long_min long_max].
    repeat split; lra.
Qed.

(** ** The invariant in terms of the abstract graph *)
Definition env_inv (m : emesh) : Prop :=
  NoDup (ids (em_cells m)) /\
  (forall c, In c (em_cells m) -> plane_bounds (e_bounds c)) /\
  (forall c c', In c (em_cells m) -> In c' (em_cells m) -> e_id c <> e_id c' ->
     sep (region (e_bounds c)) (region (e_bounds c'))) /\
  exists f, rep KS (em_graph m) (elive (em_cells m)) f /\
            exact_for (elive (em_cells m)) (icase false (ebx (em_cells m))) f.

Lemma plane_proper b : plane_bounds b -> proper (region b).
Proof. intros H. apply plane_ok in H as [H _]. apply cell_ok_box in H. apply H. Qed.

Lemma plane_region b : plane_bounds b -> x0 (region b) = long_min b /\ x1 (region b) = long_max b /\
  y0 (region b) = lat_min b /\ y1 (region b) = lat_max b.
Proof.
  intros ((H & _) & _). cbn. destruct (qltb_spec (long_min b) (long_max b)); auto. contradiction.
Qed.

(** The abstract graph and the specification. *)
Lemma contacts_rep_of gl R0 cs g f : NoDup (ids cs) ->
  (forall c c' d, In c cs -> In c' cs -> (get_neighbour_case gl (e_bounds c) (e_bounds c') = code d <-> R0 d (region (e_bounds c)) (region (e_bounds c')))) ->
  rep KS g (elive cs) f -> exact_for (elive cs) (icase gl (ebx cs)) f ->
  lists_contacts R0 cs g.
Proof.
  intros N P R E. pose proof R as (R1 & R2 & R3). split; [|split; [|split]]; auto.
  - intros k. rewrite R2. split.
    + intros (i & -> & H). apply elive_inv in H as (c & Hc & <-). eauto.
    + intros (c & -> & H). exists (e_id c). split; auto. apply elive_in; auto.
  - intros c d Hc. assert (D : In (code d) dirs) by (apply In_dirs_code; eauto).
    exists (f (e_id c) (code d)). split; [|].
    + apply (rep_get KS _ _ _ _ _ R); auto. apply elive_in; auto.
    + destruct (E (e_id c) (code d) (elive_in cs c Hc) D) as [Nf If]. split; auto.
      intros z. rewrite If.
      assert (X : forall c', In c' cs -> (icase gl (ebx cs) (e_id c) (e_id c') = code d <->
                R0 d (region (e_bounds c)) (region (e_bounds c')))).
      { intros c' Hc'. unfold icase. rewrite !ebx_id by auto. apply P; auto. }
      split.
      * intros [H E']. apply elive_inv in H as (c' & Hc' & <-). exists c'. split; auto. split; auto.
        apply X; auto.
      * intros (c' & -> & Hc' & T). split; [apply elive_in; auto|]. apply X; auto.
  - intros c mp Hc Em. destruct (R3 (e_id c)) as (m & Em' & M1 & M2 & _); [apply elive_in; auto|].
    rewrite Em in Em'. injection Em' as <-. split; auto. intros k. rewrite M2. split.
    + intros (d & -> & Hd). apply In_dirs_code in Hd as (dd & ->). eauto.
    + intros (dd & ->). exists (code dd). split; auto. apply In_dirs_code; eauto.
Qed.

Lemma contacts_inv_of gl R0 cs g : NoDup (ids cs) ->
  (forall c c' d, In c cs -> In c' cs -> (get_neighbour_case gl (e_bounds c) (e_bounds c') = code d <-> R0 d (region (e_bounds c)) (region (e_bounds c')))) ->
  lists_contacts R0 cs g ->
  exists f, rep KS g (elive cs) f /\ exact_for (elive cs) (icase gl (ebx cs)) f.
Proof.
  intros N P (G1 & G2 & G3 & M).
  exists (fun i d => match get_neighbours g (KS i) (KS d) with Ok l => l | Err _ => [] end).
  split.
  - split; [auto|split].
    + intros k. rewrite G2. split.
      * intros (c & -> & H). exists (e_id c). split; auto. apply elive_in; auto.
      * intros (i & -> & H). apply elive_inv in H as (c & Hc & <-). eauto.
    + intros i Hi. apply elive_inv in Hi as (c & Hc & <-).
      destruct (proj2 (dget_keys g (KS (e_id c)))) as (mp & Em). { apply G2; eauto. }
      exists mp. split; auto. destruct (M c mp Hc Em) as [M1 M2]. split; [auto|split]; auto.
      { intros k. rewrite M2. split.
        - intros (d & ->). exists (code d). split; auto. apply In_dirs_code; eauto.
        - intros (d & -> & Hd). apply In_dirs_code in Hd as (dd & ->). eauto. }
      intros d Hd. apply In_dirs_code in Hd as (dd & ->).
      destruct (G3 c dd Hc) as (l & El & _). rewrite El.
      unfold get_neighbours, dget in El. rewrite Em in El. cbn in El.
      destruct (dget_opt mp (KS (code dd))); congruence.
  - intros i d Hi Hd. apply elive_inv in Hi as (c & Hc & <-). apply In_dirs_code in Hd as (dd & ->).
    destruct (G3 c dd Hc) as (l & El & Nl & Il). rewrite El. split; auto.
    assert (X : forall c', In c' cs -> (icase gl (ebx cs) (e_id c) (e_id c') = code dd <->
                R0 dd (region (e_bounds c)) (region (e_bounds c')))).
    { intros c' Hc'. unfold icase. rewrite !ebx_id by auto. apply P; auto. }
    intros j. rewrite Il. split.
    + intros (c' & -> & Hc' & T). split; [apply elive_in; auto|]. apply X; auto.
    + intros [Hj E]. apply elive_inv in Hj as (c' & Hc' & <-). exists c'. split; auto. split; auto. apply X; auto.
Qed.

Lemma case_touches cs : (forall c, In c cs -> plane_bounds (e_bounds c)) ->
  forall c c' d, In c cs -> In c' cs -> (get_neighbour_case false (e_bounds c) (e_bounds c') = code d <-> touches d (region (e_bounds c)) (region (e_bounds c'))).
Proof.
  intros P c c' d Hc Hc'. rewrite case_contact by (apply plane_ok; apply P; auto). cbn [contact].
  rewrite touches_lin by (apply plane_proper, P; auto). tauto.
Qed.
Lemma contacts_rep cs g f : NoDup (ids cs) -> (forall c, In c cs -> plane_bounds (e_bounds c)) ->
  rep KS g (elive cs) f -> exact_for (elive cs) (icase false (ebx cs)) f ->
  lists_contacts touches cs g.
Proof. intros N P. apply contacts_rep_of; auto. apply case_touches, P. Qed.
Lemma contacts_inv cs g : NoDup (ids cs) -> (forall c, In c cs -> plane_bounds (e_bounds c)) ->
  lists_contacts touches cs g ->
  exists f, rep KS g (elive cs) f /\ exact_for (elive cs) (icase false (ebx cs)) f.
Proof. intros N P. apply contacts_inv_of; auto. apply case_touches, P. Qed.

Lemma apart_sep cs : (forall c, In c cs -> plane_bounds (e_bounds c)) ->
  (cells_apart cs <-> forall c c', In c cs -> In c' cs -> e_id c <> e_id c' ->
     sep (region (e_bounds c)) (region (e_bounds c'))).
Proof.
  intros P. split; intros H c c' Hc Hc' N.
  - apply sep_apart; auto using plane_proper.
  - apply sep_apart; auto using plane_proper.
Qed.

Theorem sound_inv m : sound_mesh m <-> env_inv m.
Proof.
  split.
  - intros (N & P & A & G). split; [auto|split; [auto|split]].
    + apply apart_sep; auto.
    + apply contacts_inv; auto.
  - intros (N & P & A & f & R & E). split; [auto|split; [auto|split]].
    + apply apart_sep; auto.
    + eapply contacts_rep; eauto.
Qed.

(** ** One split *)
Definition cells_inv (m : emesh) : Prop :=
  NoDup (ids (em_cells m)) /\
  (forall c, In c (em_cells m) -> plane_bounds (e_bounds c)) /\
  (forall c c', In c (em_cells m) -> In c' (em_cells m) -> e_id c <> e_id c' ->
     sep (region (e_bounds c)) (region (e_bounds c'))).
Lemma env_cells_inv m : env_inv m -> cells_inv m.
Proof. intros (A & B & C & _). split; [auto|split; auto]. Qed.

Section OneSplit.
Variable m : emesh.
Variable c : ecell.
Hypothesis Inv : cells_inv m.
Hypothesis Hc : In c (em_cells m).

Let cs := em_cells m.
Let mx := get_max_cellbox_id cs.
Let L := elive cs.

Definition ekid (q : quad) : Z :=
  match q with qSW => mx + 1 | qNW => mx + 2 | qSE => mx + 3 | qNE => mx + 4 end.
Lemma ekid_inj q q' : ekid q = ekid q' -> q = q'.
Proof. destruct q, q'; cbn; auto; lia. Qed.
Lemma ekid_gt q x : In x cs -> e_id x < ekid q.
Proof. intros H. apply max_id in H. fold mx in H. destruct q; cbn; lia. Qed.
Lemma ekid_new q : ~ L (ekid q).
Proof. intros H. apply elive_inv in H as (x & Hx & E). pose proof (ekid_gt q x Hx). lia. Qed.

Definition equads : list quad := [qSW; qNW; qSE; qNE].
Lemma In_equads q : In q equads. Proof. destruct q; cbn; tauto. Qed.

Definition kid_spec (kc : quad -> ecell) : Prop := forall q,
  e_id (kc q) = ekid q /\ quarter_of q c (kc q) /\ plane_bounds (e_bounds (kc q)).

Lemma sget_sset {V} (d : sdict V) k v k' : sget (sset d k v) k' = if String.eqb k' k then Some v else sget d k'.
Proof.
  induction d as [|(k0, v0) d IH]; cbn.
  - destruct (String.eqb k' k); auto.
  - destruct (String.eqb_spec k k0) as [->|N]; cbn.
    + destruct (String.eqb_spec k' k0); auto.
    + destruct (String.eqb_spec k' k0) as [->|N'].
      * destruct (String.eqb_spec k0 k); congruence.
      * auto.
Qed.

Lemma sim_split_ok : exists kc, sim_split_cellbox cs (e_id c) = Ok (map kc equads) /\ kid_spec kc.
Proof.
  destruct Inv as (N & P & _).
  destruct (boundary_split_ok (e_bounds c) (P c Hc)) as (sw & nw & se & ne & E & (P1&P2&P3&P4) & (Q1&Q2&Q3&Q4) & (T1&T2&T3&T4)).
  exists (fun q => let b := match q with qSW => sw | qNW => nw | qSE => se | qNE => ne end in
    mkE b (sset (e_data c) "id"%string (JId (ekid q))) (ekid q)).
  split.
  - unfold sim_split_cellbox. rewrite get_cellbox_id by auto. cbn [bind]. rewrite E. cbn [bind]. reflexivity.
  - intros q. split; [reflexivity|]. split.
    + split; [destruct q; cbn [e_bounds]; assumption|]. split; [destruct q; cbn [e_bounds]; assumption|].
      intros n Hn. cbn [e_data]. rewrite sget_sset. destruct (String.eqb_spec n "id"); congruence.
    + destruct q; cbn [e_bounds]; assumption.
Qed.

Section WithKids.
Variable kc : quad -> ecell.
Hypothesis kidH : kid_spec kc.
Let cs' := cs ++ map kc equads.

Lemma cs'_NoDup : NoDup (ids cs').
Proof.
  unfold ids, cs'. rewrite map_app. apply NoDup_app_intro.
  - apply Inv.
  - cbn. rewrite !(proj1 (kidH _)). cbn. repeat constructor; cbn; lia.
  - intros x H H'. apply in_map_iff in H as (y & <- & Hy).
    rewrite map_map in H'. apply in_map_iff in H' as (q & E & _). rewrite (proj1 (kidH q)) in E.
    pose proof (ekid_gt q y Hy). lia.
Qed.
Lemma AL_elive j : all_live ekid L j <-> elive cs' j.
Proof.
  unfold elive, ids, cs'. rewrite map_app, in_app_iff. unfold all_live. split.
  - intros [H|[q ->]]; [left; auto|right]. rewrite map_map. apply in_map_iff. exists q.
    split; [apply kidH | apply In_equads].
  - intros [H|H]; [left; auto|right]. rewrite map_map in H. apply in_map_iff in H as (q & <- & _).
    exists q. apply kidH.
Qed.
Lemma kid_in q : In (kc q) cs'.
Proof. apply in_or_app. right. apply in_map, In_equads. Qed.
Lemma old_in x : In x cs -> In x cs'.
Proof. intros. apply in_or_app. left; auto. Qed.
Lemma cs'_plane x : In x cs' -> plane_bounds (e_bounds x).
Proof.
  intros H. apply in_app_or in H as [H|H].
  - apply Inv; auto.
  - apply in_map_iff in H as (q & <- & _). apply kidH.
Qed.
Lemma AL_cell j : all_live ekid L j -> exists x, In x cs' /\ e_id x = j /\ ebx cs' j = e_bounds x.
Proof.
  intros H. apply AL_elive, elive_inv in H as (x & Hx & <-). exists x. split; auto. split; auto.
  apply ebx_id; auto using cs'_NoDup.
Qed.
Lemma eAL_ok j : all_live ekid L j -> cell_ok false (ebx cs' j).
Proof. intros H. destruct (AL_cell j H) as (x & Hx & _ & ->). apply plane_ok. apply cs'_plane; auto. Qed.
Lemma L_cell j : L j -> exists x, In x cs /\ e_id x = j /\ ebx cs' j = e_bounds x /\ ebx cs j = e_bounds x.
Proof.
  intros H. apply elive_inv in H as (x & Hx & <-). exists x. split; auto. split; auto.
  split; apply ebx_id; auto using cs'_NoDup, old_in. apply Inv.
Qed.
Lemma ebx'_old j : L j -> ebx cs' j = ebx cs j.
Proof. intros H. destruct (L_cell j H) as (x & _ & _ & -> & ->). auto. Qed.
Lemma eL_sep j k : L j -> L k -> j <> k -> sep (region (ebx cs' j)) (region (ebx cs' k)).
Proof.
  intros Hj Hk N. destruct (L_cell j Hj) as (x & Hx & Ex & -> & _), (L_cell k Hk) as (y & Hy & Ey & -> & _).
  apply Inv; auto. congruence.
Qed.
Lemma ebx'_kid q : ebx cs' (ekid q) = e_bounds (kc q).
Proof. rewrite <- (proj1 (kidH q)). apply ebx_id; auto using cs'_NoDup, kid_in. Qed.
Lemma ebx'_c : ebx cs' (e_id c) = e_bounds c.
Proof. apply ebx_id; auto using cs'_NoDup, old_in. Qed.
Lemma ekid_quarter q : quarter q (region (ebx cs' (e_id c))) (region (ebx cs' (ekid q))).
Proof. rewrite ebx'_c, ebx'_kid. apply kidH. Qed.
Lemma Lc : L (e_id c). Proof. apply elive_in; auto. Qed.

Lemma eNL_sep j k : new_live (e_id c) ekid L j -> new_live (e_id c) ekid L k -> j <> k ->
  sep (region (ebx cs' j)) (region (ebx cs' k)).
Proof.
  assert (Pc : proper (region (ebx cs' (e_id c)))).
  { rewrite ebx'_c. apply plane_proper. apply Inv; auto. }
  intros [[Hj Nj]|[q ->]] [[Hk Nk]|[q' ->]] N.
  - apply eL_sep; auto.
  - apply sep_sym. eapply quarter_sep; [exact Pc | apply ekid_quarter |]. apply eL_sep; auto. apply Lc.
  - eapply quarter_sep; [exact Pc | apply ekid_quarter |]. apply eL_sep; auto. apply Lc.
  - eapply siblings_sep; [exact Pc | apply ekid_quarter | apply ekid_quarter |]. congruence.
Qed.

Lemma esplit_graph_inv f :
  rep KS (em_graph m) L f -> exact_for L (icase false (ebx cs)) f ->
  exists g', esplit_graph cs' (em_graph m) (KS (e_id c)) (ekid qNW) (ekid qNE) (ekid qSW) (ekid qSE) = Ok g' /\
    rep KS g' (new_live (e_id c) ekid L) (final (icase false (ebx cs')) (e_id c) ekid env_pair f) /\
    exact_for (new_live (e_id c) ekid L) (icase false (ebx cs')) (final (icase false (ebx cs')) (e_id c) ekid env_pair f).
Proof.
  intros R E. set (bx' := ebx cs').
  assert (E' : exact_for L (icase false bx') f).
  { eapply exact_for_ext; [| |exact E]; [tauto|]. intros j k Hj Hk. unfold icase, bx'. rewrite !ebx'_old; auto. }
  assert (okAL := eAL_ok).
  assert (okL : forall j, L j -> cell_ok false (bx' j)) by (intros; apply eAL_ok; left; auto).
  pose proof Lc as Lc.
  pose proof (fam_anti false (all_live ekid L) bx' okAL) as Anti.
  pose proof (fam_irr false (all_live ekid L) bx' okAL) as Irr.
  pose proof (fam_uniq false L bx' okL eL_sep) as Uniq.
  destruct (esplit_graph_ok cs' bx' L f (e_id c) ekid Lc ekid_new ekid_inj Anti Irr Uniq E') with (g := em_graph m)
    as (g' & Eg & Rg); auto.
  { intros j Hj. destruct (AL_cell j Hj) as (x & Hx & <- & Eb). exists x.
    split; [apply get_cellbox_id; auto using cs'_NoDup | symmetry; exact Eb]. }
  exists g'. split; auto. split; auto.
  apply final_exact; auto.
  - apply env_pair_ok.
  - apply ekid_new.
  - apply ekid_inj.
  - apply icase_range.
  - intros q j d Hj Nj Ed.
    apply (fam_case false (all_live ekid L) bx' okAL) in Ed; [|right; eauto|left; auto].
    destruct (contact_up false q d (region (bx' (e_id c))) (region (bx' (ekid q))) (region (bx' j))) as (d' & U & C'); auto.
    + apply (fam_circle false L bx' okL); auto.
    + apply (fam_circle false L bx' okL); auto.
    + apply ekid_quarter.
    + apply eL_sep; auto.
    + exists d'. split; auto. apply (fam_case false L bx' okL); auto.
  - intros q j Hj Nj Ed. apply (fam_case false L bx' okL) in Ed; auto.
    apply (fam_case false (all_live ekid L) bx' okAL); [right; eauto|left; auto|].
    eapply contact_corner; eauto.
    + apply (fam_proper false L bx' okL); auto.
    + apply ekid_quarter.
  - intros q q' d S. apply (fam_case false (all_live ekid L) bx' okAL); [right; eauto|right; eauto|].
    eapply contact_sibling; eauto using ekid_quarter.
    apply (fam_proper false L bx' okL); auto.
Qed.

Let cs'' := remove_first (e_id c) cs'.
Lemma eNL_live j : new_live (e_id c) ekid L j <-> elive cs'' j.
Proof.
  assert (X : elive cs'' j <-> elive cs' j /\ j <> e_id c).
  { split.
    - intros H. apply elive_inv in H as (x & Hx & <-). apply remove_first_in in Hx as [Hx Nx];
        auto using cs'_NoDup, old_in. split; auto. apply elive_in; auto.
    - intros [H Nj]. apply elive_inv in H as (x & Hx & <-). apply elive_in.
      apply remove_first_in; auto using cs'_NoDup, old_in. }
  rewrite X, <- AL_elive. unfold new_live, all_live. split.
  - intros [[H N]|[q ->]]; split; eauto. pose proof (ekid_gt q c Hc). lia.
  - intros [[H|H] N]; auto.
Qed.
Lemma ebx''_eq j : new_live (e_id c) ekid L j -> ebx cs'' j = ebx cs' j.
Proof.
  intros H. apply eNL_live, elive_inv in H as (x & Hx & <-).
  assert (N : NoDup (ids cs'')) by (apply remove_first_NoDup; auto using cs'_NoDup, old_in).
  rewrite ebx_id by auto. symmetry. apply ebx_id; auto using cs'_NoDup.
  apply remove_first_in in Hx as [Hx _]; auto using cs'_NoDup, old_in.
Qed.
End WithKids.

Lemma esplit_cells kc (Hk : kid_spec kc) g' :
  cells_inv (mkEM (em_bounds m) (remove_first (e_id c) (cs ++ map kc equads)) g' (em_config m)) /\
  replaced m c (mkEM (em_bounds m) (remove_first (e_id c) (cs ++ map kc equads)) g' (em_config m)).
Proof.
  pose proof (cs'_NoDup kc Hk) as Nd. split.
  - split; [|split]; cbn [em_cells em_graph].
    + apply remove_first_NoDup; auto. apply old_in; auto.
    + intros x Hx. apply remove_first_in in Hx as [Hx _]; auto; [|apply old_in; auto].
      eapply cs'_plane; eauto.
    + intros x y Hx Hy N.
      assert (Nd' : NoDup (ids (remove_first (e_id c) (cs ++ map kc equads)))).
      { apply remove_first_NoDup; auto. apply old_in; auto. }
      rewrite <- (ebx_id _ x Nd' Hx), <- (ebx_id _ y Nd' Hy).
      assert (A : new_live (e_id c) ekid L (e_id x)) by (apply (eNL_live kc Hk), elive_in; auto).
      assert (B : new_live (e_id c) ekid L (e_id y)) by (apply (eNL_live kc Hk), elive_in; auto).
      rewrite !(ebx''_eq kc Hk) by auto. apply (eNL_sep kc Hk); auto.
  - destruct (in_split _ _ Hc) as (l1 & l2 & El).
    exists l1, l2, (kc qSW), (kc qNW), (kc qSE), (kc qNE).
    split; [auto|]. cbn [em_cells]. unfold cs in *. rewrite El in *.
    split; [|split; [apply Hk|split; [apply Hk|split; [apply Hk|split; [apply Hk|]]]]].
    + rewrite <- app_assoc in *. rewrite <- app_comm_cons in *. rewrite remove_first_app by auto. reflexivity.
    + intros x k Hx [<-|[<-|[<-|[<-|[]]]]]; rewrite (proj1 (Hk _)); apply ekid_gt; unfold cs; rewrite El; auto.
Qed.

Lemma esplit_computes kc g' : sim_split_cellbox cs (e_id c) = Ok (map kc equads) ->
  esplit_graph (cs ++ map kc equads) (em_graph m) (KS (e_id c)) (ekid qNW) (ekid qNE) (ekid qSW) (ekid qSE) = Ok g' ->
  esplit_and_replace m (KS (e_id c)) = Ok (mkEM (em_bounds m) (remove_first (e_id c) (cs ++ map kc equads)) g' (em_config m)).
Proof.
  intros Es Eg. unfold esplit_and_replace. cbn [key_int]. fold cs. rewrite Es. cbn [bind].
  fold mx. cbn [ekid] in Eg. rewrite Eg. cbn [bind]. reflexivity.
Qed.

Theorem esplit_inv_ok : env_inv m -> exists m',
  esplit_and_replace m (KS (e_id c)) = Ok m' /\ env_inv m' /\ replaced m c m' /\
  em_bounds m' = em_bounds m /\ em_config m' = em_config m /\
  (forall x d, In x cs -> e_id x <> e_id c -> get_neighbour_case_bounds (e_bounds c) (e_bounds x) = 0 -> In d dirs ->
     get_neighbours (em_graph m') (KS (e_id x)) (KS d) = get_neighbours (em_graph m) (KS (e_id x)) (KS d)).
Proof.
  intros Env. destruct sim_split_ok as (kc & Es & Hk).
  pose proof Env as (I0 & I1 & I2 & f & R & E).
  destruct (esplit_graph_inv kc Hk f R E) as (g' & Eg & Rg & Ex).
  pose proof (cs'_NoDup kc Hk) as Nd. destruct (esplit_cells kc Hk g') as ((J1 & J2 & J3) & Rp).
  exists (mkEM (em_bounds m) (remove_first (e_id c) (cs ++ map kc equads)) g' (em_config m)).
  split; [apply esplit_computes; auto|split; [|split; [auto|split; [auto|split; [auto|]]]]].
  - split; [auto|split; [auto|split; [auto|]]]. cbn [em_cells em_graph].
    exists (final (icase false (ebx (cs ++ map kc equads))) (e_id c) ekid env_pair f).
    split.
    + eapply rep_ext; [| |exact Rg]; auto. intros j. apply (eNL_live kc Hk).
    + eapply exact_for_ext; [| |exact Ex].
      * intros j. apply (eNL_live kc Hk).
      * intros j k Hj Hkk. unfold icase. rewrite !(ebx''_eq kc Hk) by auto. auto.
  - intros x d Hx Nx E0 Hd. cbn [em_graph].
    assert (Lx : L (e_id x)) by (apply elive_in; auto).
    rewrite (rep_get KS _ _ _ _ _ Rg) by (auto; left; split; auto).
    rewrite (rep_get KS _ _ _ _ _ R) by auto. f_equal.
    apply (final_local _ _ _ _ _ L); auto.
    + apply ekid_new.
    + unfold icase. rewrite (ebx'_c kc Hk).
      rewrite (ebx_id _ x Nd) by (apply old_in; auto). exact E0.
Qed.
End OneSplit.
Theorem esplit_ok m c : env_inv m -> In c (em_cells m) -> exists m',
  esplit_and_replace m (KS (e_id c)) = Ok m' /\ env_inv m' /\ replaced m c m' /\
  em_bounds m' = em_bounds m /\ em_config m' = em_config m /\
  (forall x d, In x (em_cells m) -> e_id x <> e_id c -> get_neighbour_case_bounds (e_bounds c) (e_bounds x) = 0 -> In d dirs ->
     get_neighbours (em_graph m') (KS (e_id x)) (KS d) = get_neighbours (em_graph m) (KS (e_id x)) (KS d)).
Proof. intros I Hc. exact (esplit_inv_ok m c (env_cells_inv m I) Hc I). Qed.

(** Whatever succeeds is a split of an existing cell, named by its string id. *)
Lemma esplit_cell m k m' : env_inv m -> esplit_and_replace m k = Ok m' ->
  exists c, In c (em_cells m) /\ k = KS (e_id c).
Proof.
  intros (N & P & A & f & R & _) H. unfold esplit_and_replace in H.
  destruct (sim_split_cellbox (em_cells m) (key_int k)) as [kids|] eqn:Es; [|discriminate].
  unfold sim_split_cellbox in Es. destruct (get_cellbox (em_cells m) (key_int k)) as [c|] eqn:Ec; [|discriminate].
  apply get_cellbox_ok in Ec as [Hc Ec]. exists c. split; auto.
  destruct k as [z|z]; cbn in Ec; [|congruence]. exfalso.
  cbn [bind] in H. unfold esplit_graph in H. rewrite (rep_KS_miss _ _ _ _ _ R) in H. discriminate.
Qed.

Theorem esplits_inv m m' : env_inv m -> esplits m m' -> env_inv m'.
Proof.
  intros I H. revert I. induction H as [m|m m1 m2 k H IH E]; auto. intros I. specialize (IH I).
  destruct (esplit_cell _ _ _ IH E) as (c & Hc & ->).
  destruct (esplit_ok m1 c IH Hc) as (m2' & E' & I' & _). congruence.
Qed.

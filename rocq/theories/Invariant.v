(** The mesh invariant and its preservation by MeshBuilder.split_and_replace. *)
From Verif Require Import Base Geo Graph Cell Builder Spec MeshSpec QLib CaseProofs SplitGeo Dict Rep SplitCore Stage BuilderSplit.
Open Scope Z_scope.

(** ** Splitting bounds *)
Lemma qfloor_zero q : (0 <= q < 1)%Q -> Qfloor q = 0.
Proof.
  intros [H1 H2].
  assert (A : 0 <= Qfloor q). { apply (Qfloor_resp_le 0 q) in H1. exact H1. }
  assert (B : Qfloor q < 1).
  { assert (inject_Z (Qfloor q) < inject_Z 1)%Q. { pose proof (Qfloor_le q). change (inject_Z 1) with 1%Q. lra. }
    rewrite <- Zlt_Qlt in H. auto. }
  lia.
Qed.

Lemma qmod_small a b : (0 <= a < b)%Q -> (qmod a b == a)%Q.
Proof.
  intros [H1 H2]. unfold qmod. rewrite qfloor_zero.
  - change (inject_Z 0) with 0%Q. lra.
  - split.
    + apply Qle_shift_div_l; lra.
    + apply Qlt_shift_div_r; lra.
Qed.

Lemma longitude_domain_id x : (-180 <= x <= 180)%Q -> (longitude_domain x == x)%Q.
Proof.
  intros [H1 H2]. unfold longitude_domain.
  destruct (qeqb_spec x (-180)); cbn; [lra|]. destruct (qeqb_spec x 180); cbn; [lra|].
  rewrite qmod_small; lra.
Qed.

Lemma Boundary_ok la lb oa ob t :
  (la <= lb)%Q -> (-180 <= oa)%Q -> (ob <= 180)%Q -> times_ok t ->
  Boundary [la; lb] [oa; ob] t = Ok (mkB la lb oa ob t).
Proof.
  intros H1 H2 H3 Ht. unfold Boundary. qsplit.
  destruct Ht as [->|(a & b & -> & Hab)]; auto.
  destruct (Z.ltb_spec b a); auto. lia.
Qed.

Lemma half_lin (a : Q) : (a / 2 == a * (1#2))%Q.
Proof. field. Qed.

Lemma split_bounds_ok gl b : cell_ok gl b -> times_ok (time_range b) ->
  exists nw ne sw se, split_bounds b = Ok [nw; ne; sw; se] /\
    (cell_ok gl nw /\ cell_ok gl ne /\ cell_ok gl sw /\ cell_ok gl se) /\
    (quarter qNW (region b) (region nw) /\ quarter qNE (region b) (region ne) /\
     quarter qSW (region b) (region sw) /\ quarter qSE (region b) (region se)) /\
    (time_range nw = time_range b /\ time_range ne = time_range b /\
     time_range sw = time_range b /\ time_range se = time_range b).
Proof.
  intros Hok Ht. pose proof Hok as ([H1 H2] & H3 & H4 & H5).
  pose proof (regular_width b (conj H1 H2)) as W.
  pose proof (regular_x1 b (conj H1 H2)) as X1.
  assert (Hh : (get_height b == lat_max b - lat_min b)%Q) by (unfold get_height; lra).
  unfold split_bounds. cbv zeta.
  assert (M : (longitude_domain (long_min b + get_width b / 2) == (long_min b + long_max b) * (1#2))%Q).
  { pose proof (half_lin (get_width b)). rewrite longitude_domain_id by lra. lra. }
  assert (E : (longitude_domain (long_min b + get_width b) == long_max b)%Q).
  { rewrite longitude_domain_id by lra. lra. }
  pose proof (half_lin (get_height b)) as Hh2.
  generalize dependent (longitude_domain (long_min b + get_width b / 2)).
  generalize dependent (longitude_domain (long_min b + get_width b)). intros xe E xm M.
  generalize dependent (get_height b / 2)%Q. intros hh Hh2.
  rewrite !Boundary_ok by (auto; lra). cbn [bind].
  do 4 eexists. split; [reflexivity|].
  split; [|split; [|cbn; auto]].
  - unfold cell_ok, regular; cbn [long_min long_max lat_min lat_max].
    repeat split; try lra; intros G; specialize (H5 G); lra.
  - assert (X : forall la lb oa ob t, (oa < ob)%Q ->
      x1 (region (mkB la lb oa ob t)) = ob).
    { intros. cbn. destruct (qltb_spec oa ob); auto. lra. }
    unfold quarter, xmid, ymid. rewrite !X, X1 by lra. cbn [x0 y0 y1 region lat_min lat_max long_min long_max].
    repeat split; lra.
Qed.

(** ** Live cells and their bounds, by index *)
Definition default_b : boundary := mkB 0 0 0 0 [].
Definition bx_of (cs : list (option cellbox)) (i : Z) : boundary :=
  match nth_error cs (Z.to_nat i) with Some (Some c) => cb_bounds c | _ => default_b end.
Definition live_of (cs : list (option cellbox)) (i : Z) : Prop :=
  0 <= i /\ exists c, nth_error cs (Z.to_nat i) = Some (Some c).

Lemma bounds_at_live cs i : live_of cs i -> bounds_at (cell_bounds_list cs) i = Ok (bx_of cs i).
Proof.
  intros (H & c & E). unfold bounds_at, bx_of. rewrite E.
  rewrite <- (Z2Nat.id i) by auto. erewrite py_nth_some.
  2:{ unfold cell_bounds_list. rewrite nth_error_map, E. reflexivity. }
  reflexivity.
Qed.

Definition mesh_inv (m : mesh) : Prop :=
  (forall i c, live_cell m i c -> cb_id c = Z.of_nat i /\ cell_ok (glob m) (cb_bounds c) /\ times_ok (time_range (cb_bounds c))) /\
  (forall i j c c', live_cell m i c -> live_cell m j c' -> i <> j -> sep (region (cb_bounds c)) (region (cb_bounds c'))) /\
  exists f, rep KI (ng m) (live_of (cells m)) f /\ exact_for (live_of (cells m)) (icase (glob m) (bx_of (cells m))) f.

Lemma exact_for_ext (L L' : Z -> Prop) (c c' : Z -> Z -> Z) f :
  (forall i, L i <-> L' i) -> (forall i j, L i -> L j -> c i j = c' i j) ->
  exact_for L c f -> exact_for L' c' f.
Proof.
  intros HL Hc H i d Hi Hd. apply HL in Hi. destruct (H i d Hi Hd) as [N I]. split; auto.
  intros j. rewrite I, HL. split; intros [Hj E]; split; auto.
  - rewrite <- Hc; auto. apply HL; auto.
  - rewrite Hc; auto. apply HL; auto.
Qed.

(** Facts about a family of well-formed, pairwise separate boxes. *)
Section Family.
Variable gl : bool.
Variable L : Z -> Prop.
Variable bx : Z -> boundary.
Hypothesis okH : forall i, L i -> cell_ok gl (bx i).
Hypothesis sepH : forall i j, L i -> L j -> i <> j -> sep (region (bx i)) (region (bx j)).

Notation rg i := (region (bx i)).
Lemma fam_box i : L i -> box_ok gl (rg i).
Proof. intro. apply cell_ok_box; auto. Qed.
Lemma fam_circle i : L i -> in_circle (rg i).
Proof. intro. apply fam_box; auto. Qed.
Lemma fam_proper i : L i -> proper (rg i).
Proof. intro. apply fam_circle; auto. Qed.
Lemma fam_case i j d : L i -> L j -> icase gl bx i j = code d <-> contact gl d (rg i) (rg j).
Proof. intros. apply case_contact; auto. Qed.

Lemma fam_anti i j : L i -> L j -> icase gl bx j i = - icase gl bx i j.
Proof.
  intros Hi Hj. destruct (icase_range gl bx i j) as [E|[d E]].
  - destruct (icase_range gl bx j i) as [E'|[d E']]; [rewrite E, E'; auto|].
    apply fam_case in E'; auto. apply contact_sym in E'. apply fam_case in E'; auto.
    rewrite E in E'. symmetry in E'. destruct (code_nonzero _ E').
  - rewrite E. rewrite <- code_opposite. apply fam_case; auto. apply contact_sym. apply fam_case; auto.
Qed.
Lemma fam_irr i : L i -> icase gl bx i i = 0.
Proof.
  intros Hi. destruct (icase_range gl bx i i) as [E|[d E]]; auto.
  apply fam_case in E; auto. destruct (contact_irrefl gl d (rg i)); auto. apply fam_box; auto.
Qed.
Lemma fam_uniq i j k d : L i -> L j -> L k -> is_corner d = true ->
  icase gl bx i j = code d -> icase gl bx i k = code d -> j = k.
Proof.
  intros Hi Hj Hk C E1 E2. apply fam_case in E1; auto. apply fam_case in E2; auto.
  destruct (Z.eq_dec j k); auto. exfalso.
  eapply (contact_corner_unique gl d (rg i) (rg j) (rg k)); eauto using fam_circle.
Qed.
End Family.

(** ** One split *)
Section OneSplit.
Variable m : mesh.
Variable i : nat.
Variable c : cellbox.
Hypothesis Inv : mesh_inv m.
Hypothesis Li : live_cell m i c.

Let gl := glob m.
Let n := List.length (cells m).

Definition kid_idx (q : quad) : Z :=
  match q with qNW => Z.of_nat n | qNE => Z.of_nat n + 1 | qSW => Z.of_nat n + 2 | qSE => Z.of_nat n + 3 end.
Lemma kid_idx_inj q q' : kid_idx q = kid_idx q' -> q = q'.
Proof. destruct q, q'; cbn; auto; lia. Qed.
Lemma live_lt j c' : live_cell m j c' -> (j < n)%nat.
Proof. intros H. apply nth_error_Some. unfold live_cell in H. congruence. Qed.
Lemma live_of_lt j : live_of (cells m) j -> 0 <= j < Z.of_nat n.
Proof.
  intros (H & x & E). assert (Z.to_nat j < n)%nat by (eapply live_lt; exact E). lia.
Qed.
Lemma kid_not_live q : ~ live_of (cells m) (kid_idx q).
Proof. intros H. apply live_of_lt in H. destruct q; cbn in H; lia. Qed.

Definition quads : list quad := [qNW; qNE; qSW; qSE].
Definition qpos (q : quad) : nat := match q with qNW => 0 | qNE => 1 | qSW => 2 | qSE => 3 end.
Lemma kid_idx_pos q : kid_idx q = Z.of_nat (n + qpos q).
Proof. destruct q; cbn; lia. Qed.

(** What a successful split yields. *)
Definition split_result (m' : mesh) (kidc : quad -> cellbox) : Prop :=
  cells m' = list_set (cells m ++ map Some (map kidc quads)) i None /\
  glob m' = glob m /\
  (forall q, cb_id (kidc q) = kid_idx q /\ cb_depth (kidc q) = cb_depth c + 1 /\
     cb_parent (kidc q) = Some c /\
     cb_sources (kidc q) = child_sources (cb_bounds (kidc q)) (cb_sources c) /\
     time_range (cb_bounds (kidc q)) = time_range (cb_bounds c) /\
     cell_ok gl (cb_bounds (kidc q)) /\
     quarter q (region (cb_bounds c)) (region (cb_bounds (kidc q)))).

Lemma cell_split_ok : exists kidc,
  cell_split c (Z.of_nat n) = Ok (map kidc quads) /\
  (forall q, cb_id (kidc q) = kid_idx q /\ cb_depth (kidc q) = cb_depth c + 1 /\
     cb_parent (kidc q) = Some c /\
     cb_sources (kidc q) = child_sources (cb_bounds (kidc q)) (cb_sources c) /\
     time_range (cb_bounds (kidc q)) = time_range (cb_bounds c) /\
     cell_ok gl (cb_bounds (kidc q)) /\
     quarter q (region (cb_bounds c)) (region (cb_bounds (kidc q)))).
Proof.
  destruct Inv as (I1 & _ & _). destruct (I1 i c Li) as (_ & Hok & Ht).
  destruct (split_bounds_ok _ _ Hok Ht) as (nw & ne & sw & se & E & (O1&O2&O3&O4) & (Q1&Q2&Q3&Q4) & (T1&T2&T3&T4)).
  exists (fun q => let b := match q with qNW => nw | qNE => ne | qSW => sw | qSE => se end in
    mkCell b (kid_idx q) (cb_depth c + 1) (child_sources b (cb_sources c)) (Some c)).
  split.
  - unfold cell_split. rewrite E. cbn. repeat f_equal; rewrite ?Z.add_0_r; auto.
  - intros q. destruct q; cbn [cb_id cb_depth cb_parent cb_sources cb_bounds]; repeat split; auto; apply O1 || apply O2 || apply O3 || apply O4 || apply Q1 || apply Q2 || apply Q3 || apply Q4.
Qed.

Section WithKids.
Variable kidc : quad -> cellbox.
Hypothesis kidH : forall q, cb_id (kidc q) = kid_idx q /\ cb_depth (kidc q) = cb_depth c + 1 /\
     cb_parent (kidc q) = Some c /\
     cb_sources (kidc q) = child_sources (cb_bounds (kidc q)) (cb_sources c) /\
     time_range (cb_bounds (kidc q)) = time_range (cb_bounds c) /\
     cell_ok gl (cb_bounds (kidc q)) /\
     quarter q (region (cb_bounds c)) (region (cb_bounds (kidc q))).

Let cs' := cells m ++ map Some (map kidc quads).
Let bx' := bx_of cs'.
Let L := live_of (cells m).
Let ci := Z.of_nat i.

Lemma cs'_old j : (j < n)%nat -> nth_error cs' j = nth_error (cells m) j.
Proof. intros H. apply nth_error_app1. auto. Qed.
Lemma cs'_kid q : nth_error cs' (n + qpos q) = Some (Some (kidc q)).
Proof.
  unfold cs'. rewrite nth_error_app2 by lia.
  replace (n + qpos q - List.length (cells m))%nat with (qpos q) by (unfold n; lia).
  destruct q; reflexivity.
Qed.
Lemma bx'_old j : L j -> bx' j = bx_of (cells m) j.
Proof.
  intros H. unfold bx', bx_of. pose proof (live_of_lt j H). rewrite cs'_old by lia. auto.
Qed.
Lemma bx'_kid q : bx' (kid_idx q) = cb_bounds (kidc q).
Proof. unfold bx', bx_of. rewrite kid_idx_pos, Nat2Z.id, cs'_kid. auto. Qed.
Lemma L_live j c' : live_cell m j c' -> L (Z.of_nat j).
Proof. intros H. split; [lia|]. exists c'. rewrite Nat2Z.id. auto. Qed.
Lemma L_inv j : L j -> exists c', live_cell m (Z.to_nat j) c' /\ bx_of (cells m) j = cb_bounds c'.
Proof. intros (H & c' & E). exists c'. split; auto. unfold bx_of. rewrite E. auto. Qed.
Lemma bx_live j c' : live_cell m j c' -> bx_of (cells m) (Z.of_nat j) = cb_bounds c'.
Proof. intros H. unfold bx_of. rewrite Nat2Z.id. unfold live_cell in H. rewrite H. auto. Qed.
Lemma Lci : L ci. Proof. eapply L_live; eauto. Qed.
Lemma bx'_c : bx' ci = cb_bounds c.
Proof. rewrite bx'_old by apply Lci. apply bx_live; auto. Qed.

Notation AL := (all_live kid_idx L).

Lemma AL_live j : AL j <-> live_of cs' j.
Proof.
  split.
  - intros [H|[q ->]].
    + pose proof (live_of_lt j H). destruct H as (H & c' & E). split; auto. exists c'.
      rewrite cs'_old by lia. auto.
    + split; [destruct q; cbn; lia|]. exists (kidc q). rewrite kid_idx_pos, Nat2Z.id. apply cs'_kid.
  - intros (H & c' & E).
    assert (Hlt : (Z.to_nat j < List.length cs')%nat) by (apply nth_error_Some; congruence).
    assert (El : List.length cs' = (n + 4)%nat). { unfold cs'. rewrite app_length. reflexivity. }
    rewrite El in Hlt.
    destruct (Nat.lt_ge_cases (Z.to_nat j) n) as [Hn|Hn].
    + left. split; auto. exists c'. rewrite <- cs'_old; auto.
    + right.
      assert (X : (j = Z.of_nat n \/ j = Z.of_nat n + 1 \/ j = Z.of_nat n + 2 \/ j = Z.of_nat n + 3)) by lia.
      destruct X as [->|[->|[->| ->]]]; [exists qNW|exists qNE|exists qSW|exists qSE]; auto.
Qed.

Lemma AL_ok j : AL j -> cell_ok gl (bx' j).
Proof.
  intros [H|[q ->]].
  - rewrite bx'_old by auto. destruct (L_inv j H) as (c' & Hl & ->). destruct Inv as (I1 & _).
    apply (I1 _ _ Hl).
  - rewrite bx'_kid. apply kidH.
Qed.
Lemma L_sep j k : L j -> L k -> j <> k -> sep (region (bx' j)) (region (bx' k)).
Proof.
  intros Hj Hk N. rewrite !bx'_old by auto.
  destruct (L_inv j Hj) as (c1 & H1 & ->). destruct (L_inv k Hk) as (c2 & H2 & ->).
  destruct Inv as (_ & I2 & _). eapply I2; eauto.
  intro E. apply N. destruct Hj, Hk. rewrite <- (Z2Nat.id j), <- (Z2Nat.id k), E; auto.
Qed.
Lemma kid_quarter q : quarter q (region (bx' ci)) (region (bx' (kid_idx q))).
Proof. rewrite bx'_c, bx'_kid. apply kidH. Qed.
Lemma NL_sep j k : new_live ci kid_idx L j -> new_live ci kid_idx L k -> j <> k ->
  sep (region (bx' j)) (region (bx' k)).
Proof.
  assert (Pc : proper (region (bx' ci))).
  { apply (fam_proper gl L); [intros; apply AL_ok; left; auto | apply Lci]. }
  intros [[Hj Nj]|[q ->]] [[Hk Nk]|[q' ->]] N.
  - apply L_sep; auto.
  - apply sep_sym. eapply quarter_sep; [exact Pc | apply kid_quarter |]. apply L_sep; auto. apply Lci.
  - eapply quarter_sep; [exact Pc | apply kid_quarter |]. apply L_sep; auto. apply Lci.
  - eapply siblings_sep; [exact Pc | apply kid_quarter | apply kid_quarter |]. congruence.
Qed.

Lemma split_graph_inv f :
  rep KI (ng m) L f -> exact_for L (icase gl (bx_of (cells m))) f ->
  exists g', split_graph gl (cell_bounds_list cs') (ng m) ci (kid_idx qNW) (kid_idx qNE) (kid_idx qSW) (kid_idx qSE) = Ok g' /\
    rep KI g' (new_live ci kid_idx L) (final (icase gl bx') ci kid_idx builder_pair f) /\
    exact_for (new_live ci kid_idx L) (icase gl bx') (final (icase gl bx') ci kid_idx builder_pair f).
Proof.
  intros R E.
  assert (E' : exact_for L (icase gl bx') f).
  { eapply exact_for_ext; [| |exact E]; [tauto|]. intros j k Hj Hk. unfold icase. rewrite !bx'_old; auto. }
  assert (okAL := AL_ok).
  assert (okL : forall j, L j -> cell_ok gl (bx' j)) by (intros; apply AL_ok; left; auto).
  pose proof Lci as Lc.
  pose proof (fam_anti gl AL bx' okAL) as Anti.
  pose proof (fam_irr gl AL bx' okAL) as Irr.
  pose proof (fam_uniq gl L bx' okL L_sep) as Uniq.
  destruct (split_graph_ok gl (cell_bounds_list cs') bx' L f ci kid_idx Lc kid_not_live kid_idx_inj Anti Irr Uniq E') with (g := ng m)
    as (g' & Eg & Rg); auto.
  { intros j Hj. apply bounds_at_live. apply AL_live; auto. }
  exists g'. split; auto. split; auto.
  apply final_exact; auto.
  - apply builder_pair_ok.
  - apply kid_not_live.
  - apply kid_idx_inj.
  - apply icase_range.
  - intros q j d Hj Nj Ed.
    apply (fam_case gl AL bx' okAL) in Ed; [|right; eauto|left; auto].
    destruct (contact_up gl q d (region (bx' ci)) (region (bx' (kid_idx q))) (region (bx' j))) as (d' & U & C'); auto.
    + apply (fam_circle gl L bx' okL); auto.
    + apply (fam_circle gl L bx' okL); auto.
    + apply kid_quarter.
    + apply L_sep; auto.
    + exists d'. split; auto. apply (fam_case gl L bx' okL); auto.
  - intros q j Hj Nj Ed. apply (fam_case gl L bx' okL) in Ed; auto.
    apply (fam_case gl AL bx' okAL); [right; eauto|left; auto|].
    eapply contact_corner; eauto.
    + apply (fam_proper gl L bx' okL); auto.
    + apply kid_quarter.
  - intros q q' d S. apply (fam_case gl AL bx' okAL); [right; eauto|right; eauto|].
    eapply contact_sibling; eauto using kid_quarter.
    apply (fam_proper gl L bx' okL); auto.
Qed.

Lemma cs''_nth j : nth_error (list_set cs' i None) j =
  if Nat.eqb j i then Some None else nth_error cs' j.
Proof.
  rewrite list_set_nth. assert (i < List.length cs')%nat.
  { unfold cs'. rewrite app_length. pose proof (live_lt i c Li). unfold n in *. lia. }
  apply Nat.ltb_lt in H. rewrite H, andb_true_r. auto.
Qed.

Lemma NL_live j : new_live ci kid_idx L j <-> live_of (list_set cs' i None) j.
Proof.
  assert (X : live_of (list_set cs' i None) j <-> live_of cs' j /\ j <> ci).
  { unfold live_of. rewrite cs''_nth. destruct (Nat.eqb_spec (Z.to_nat j) i).
    - split; [intros (_ & ? & ?); discriminate|]. intros ((H & _) & N). exfalso. apply N. unfold ci. lia.
    - split; [|tauto]. intros H. split; auto. unfold ci. intros ->. rewrite Nat2Z.id in n0. auto. }
  rewrite X, <- AL_live. unfold new_live, all_live. split.
  - intros [[H N]|[q ->]]; split; eauto.
    pose proof (live_lt i c Li). unfold ci. destruct q; cbn; lia.
  - intros [[H|H] N]; auto.
Qed.

Lemma bx''_eq j : new_live ci kid_idx L j -> bx_of (list_set cs' i None) j = bx' j.
Proof.
  intros H. apply NL_live in H. destruct H as (Hj & x & E). unfold bx', bx_of.
  rewrite cs''_nth in *. destruct (Nat.eqb_spec (Z.to_nat j) i); [discriminate|]. auto.
Qed.

Lemma live_after j x : nth_error (list_set cs' i None) j = Some (Some x) <->
  (live_cell m j x /\ j <> i) \/ exists q, j = (n + qpos q)%nat /\ x = kidc q.
Proof.
  rewrite cs''_nth. pose proof (live_lt i c Li). destruct (Nat.eqb_spec j i) as [->|N].
  - split; [discriminate|]. intros [[_ N]|(q & E & _)]; [congruence|lia].
  - split.
    + intros E. destruct (Nat.lt_ge_cases j n) as [Hn|Hn].
      * left. split; auto. rewrite cs'_old in E; auto.
      * right. assert (Hlt : (j < List.length cs')%nat) by (apply nth_error_Some; congruence).
        unfold cs' in Hlt. rewrite app_length in Hlt. cbn in Hlt. fold n in Hlt.
        assert (X : exists q, j = (n + qpos q)%nat).
        { assert (j = n \/ j = n + 1 \/ j = n + 2 \/ j = n + 3)%nat as [->|[->|[->| ->]]] by lia;
          [exists qNW|exists qNE|exists qSW|exists qSE]; cbn; lia. }
        destruct X as (q & ->). exists q. split; auto. rewrite cs'_kid in E. congruence.
    + intros [[E _]|(q & -> & ->)]; [|apply cs'_kid].
      rewrite cs'_old; auto. eapply live_lt; eauto.
Qed.
End WithKids.

Theorem split_and_replace_ok : exists m' kidc,
  split_and_replace m i = Ok m' /\ mesh_inv m' /\ split_result m' kidc /\
  (forall j cj d, live_cell m j cj -> j <> i ->
     get_neighbour_case gl (cb_bounds c) (cb_bounds cj) = 0 -> In d dirs ->
     get_neighbours (ng m') (KI (Z.of_nat j)) (KI d) = get_neighbours (ng m) (KI (Z.of_nat j)) (KI d)).
Proof.
  destruct cell_split_ok as (kidc & Es & Hk).
  destruct Inv as (I1 & I2 & f & R & E).
  destruct (split_graph_inv kidc Hk f R E) as (g' & Eg & Rg & Ex).
  exists (mkMesh (list_set (cells m ++ map Some (map kidc quads)) i None) g' (glob m)), kidc.
  split; [|split; [|split]].
  - unfold split_and_replace. rewrite (py_nth_some _ _ _ Li). cbn [bind].
    fold n. rewrite Es. cbn [bind].
    unfold gl in Eg. cbn [kid_idx] in Eg.
    rewrite Eg. cbn [bind]. reflexivity.
  - split; [|split]; cbn [cells glob ng].
    + intros j x H. unfold live_cell in H. cbn [cells] in H. apply (live_after kidc) in H.
      destruct H as [[H N]|(q & -> & ->)].
      * apply (I1 _ _ H).
      * destruct (Hk q) as (K1 & K2 & K3 & K4 & K5 & K6 & K7). rewrite K1, kid_idx_pos, K5.
        split; auto. split; auto. apply (I1 _ _ Li).
    + intros j k x y Hj Hkk N. unfold live_cell in Hj, Hkk. cbn [cells] in Hj, Hkk.
      assert (A : new_live (Z.of_nat i) kid_idx (live_of (cells m)) (Z.of_nat j)).
      { apply (NL_live kidc). split; [lia|]. rewrite Nat2Z.id. eauto. }
      assert (B : new_live (Z.of_nat i) kid_idx (live_of (cells m)) (Z.of_nat k)).
      { apply (NL_live kidc). split; [lia|]. rewrite Nat2Z.id. eauto. }
      pose proof (NL_sep kidc Hk _ _ A B) as S.
      rewrite <- !(bx''_eq kidc) in S by auto. unfold bx_of in S. rewrite !Nat2Z.id, Hj, Hkk in S.
      apply S. lia.
    + exists (final (icase (glob m) (bx_of (cells m ++ map Some (map kidc quads)))) (Z.of_nat i) kid_idx builder_pair f).
      split.
      * eapply rep_ext; [| |exact Rg]; auto. intros j. apply (NL_live kidc).
      * eapply exact_for_ext; [| |exact Ex].
        -- intros j. apply (NL_live kidc).
        -- intros j k Hj Hkk. unfold icase. rewrite !(bx''_eq kidc) by auto. auto.
  - split; [|split]; auto.
  - intros j cj d Hj Nj E0 Hd. cbn [ng].
    assert (Lj : live_of (cells m) (Z.of_nat j)) by (eapply L_live; eauto).
    rewrite (rep_get KI _ _ _ _ _ Rg) by (auto; left; split; auto; lia).
    rewrite (rep_get KI _ _ _ _ _ R) by auto. f_equal.
    apply (final_local _ _ _ _ _ (live_of (cells m))); auto.
    + apply kid_not_live.
    + unfold icase. rewrite (bx'_c kidc), (bx'_old kidc) by auto. rewrite (bx_live j cj); auto.
Qed.
End OneSplit.

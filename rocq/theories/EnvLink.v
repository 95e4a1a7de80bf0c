(** From the builder's mesh through JSON to the loaded mesh. *)
From Verif Require Import Base Geo Graph Cell Builder Env Spec MeshSpec EnvSpec QLib CaseProofs SplitGeo Dict Rep SplitCore Stage BuilderSplit Invariant Grid Build Consequences Reach MeshFacts DataSpec Adaptive ChainProofs AdaptiveFacts EnvSplit EnvInv EnvMerge EnvJson.
Open Scope Z_scope.

(** ** Cells of a reachable mesh lie in, and are shaped like, base cells *)
Definition grid_box (b : boundary) (w h : Q) (c : box) : Prop :=
  (exists i j : Z,
    (long_min b + inject_Z i * w <= x0 c /\ x1 c <= long_min b + inject_Z (i + 1) * w /\
     lat_min b + inject_Z j * h <= y0 c /\ y1 c <= lat_min b + inject_Z (j + 1) * h)%Q) /\
  ((x1 c - x0 c) * h == (y1 c - y0 c) * w)%Q.

Lemma quarter_inside q c k : proper c -> quarter q c k ->
  (x0 c <= x0 k /\ x1 k <= x1 c /\ y0 c <= y0 k /\ y1 k <= y1 c)%Q.
Proof. unfold proper. destruct q; unfold quarter, xmid, ymid; intros; lra. Qed.
Lemma quarter_size q c k : quarter q c k ->
  ((x1 k - x0 k) == (x1 c - x0 c) * (1#2) /\ (y1 k - y0 k) == (y1 c - y0 c) * (1#2))%Q.
Proof. destruct q; unfold quarter, xmid, ymid; intros; lra. Qed.

Lemma quarter_grid b w h q c k : proper c -> quarter q c k -> grid_box b w h c -> grid_box b w h k.
Proof.
  intros P Hq [(i & j & H) S]. pose proof (quarter_inside q c k P Hq). destruct (quarter_size q c k Hq) as [W Hh].
  split; [exists i, j; lra|]. rewrite W, Hh. lra.
Qed.

Lemma reachable_grid b cw ch srcs m : admissible b cw ch -> reachable b cw ch srcs m ->
  forall i c, live_cell m i c -> grid_box b cw ch (region (cb_bounds c)).
Proof.
  intros A (m0 & E & S). pose proof (build_facts _ _ _ _ _ A E) as (R0 & C0 & _ & _ & _ & _ & _ & I0 & _).
  assert (H0 : forall i c, live_cell m0 i c -> grid_box b cw ch (region (cb_bounds c))).
  { destruct (build_grid _ _ _ _ _ A E) as (R & C & _ & _ & Len & Cells). intros i c L.
    assert (Hi : (i < R * C)%nat). { rewrite <- Len. apply nth_error_Some. unfold live_cell in L. congruence. }
    assert (HC : (C <> 0)%nat) by (destruct C; lia).
    destruct (Cells (i / C)%nat (i mod C)%nat) as (x & Lx & _ & _ & _ & _ & _ & G).
    { apply Nat.div_lt_upper_bound; lia. } { apply Nat.mod_upper_bound; auto. }
    replace (i / C * C + i mod C)%nat with i in Lx by (rewrite (Nat.div_mod i C) at 1; lia).
    assert (x = c) by (unfold live_cell in *; congruence). subst x. cbv zeta in G.
    destruct G as (G1 & G2 & G3 & G4). split.
    - exists (Z.of_nat (i mod C)), (Z.of_nat (i / C)). rewrite !inject_Z_plus. change (inject_Z 1) with 1%Q. lra.
    - assert (E1 : (x1 (region (cb_bounds c)) - x0 (region (cb_bounds c)) == cw)%Q) by lra.
      assert (E2 : (y1 (region (cb_bounds c)) - y0 (region (cb_bounds c)) == ch)%Q) by lra.
      rewrite E1, E2. lra. }
  clear E. induction S as [|m m1 m2 i S IH E]; auto.
  pose proof (splits_inv _ _ I0 S) as I1. destruct (split_step _ _ _ I1 E) as (c & kidc & Li & I2 & SR & _).
  intros j x L. apply (after_split _ _ _ _ _ I1 Li SR) in L as [[L _]|(q & -> & ->)].
  - eapply IH; eauto.
  - destruct SR as (_ & _ & Hk). destruct (Hk q) as (_ & _ & _ & _ & _ & _ & Hq).
    refine (quarter_grid b cw ch q _ _ _ Hq (IH I0 H0 _ _ Li)). exact (live_region m1 I1 _ _ Li).
Qed.

(** ** Reading the cells back *)
Lemma live_list_ids m : mesh_inv m -> NoDup (map cb_id (live_list m)).
Proof.
  intros (I1 & _). unfold live_list.
  assert (X : forall l off, (forall i c, nth_error l i = Some (Some c) -> cb_id c = Z.of_nat (off + i)) ->
     NoDup (map cb_id (flat_map (fun o => match o with Some c => [c] | None => [] end) l)) /\
     forall z, In z (map cb_id (flat_map (fun o => match o with Some c => [c] | None => [] end) l)) -> Z.of_nat off <= z).
  { clear. induction l as [|o l IH]; intros off H; [split; [constructor|intros z []]|].
    destruct (IH (S off)) as [N B]. { intros i c Hi. rewrite (H (S i) c Hi). f_equal. lia. }
    destruct o as [c|]; cbn [flat_map app map].
    - pose proof (H 0%nat c eq_refl) as Hc. split.
      + constructor; auto. intros Hin. apply B in Hin. lia.
      + intros z [<-|Hz]; [lia|]. apply B in Hz. lia.
    - split; auto. intros z Hz. apply B in Hz. lia. }
  apply (X (cells m) 0%nat). intros i c Hi. apply (I1 i c Hi).
Qed.

Lemma loaded_cells m acs : mesh_inv m ->
  map ac_id acs = map cb_id (live_list m) -> map ac_bounds acs = map cb_bounds (live_list m) ->
  let cs := map (fun c => mkE (without_times (e_bounds c)) (e_data c) (e_id c)) (map ecell_of acs) in
  same_cells m cs /\ NoDup (ids cs).
Proof.
  intros I E1 E2 cs.
  assert (N : NoDup (ids cs)).
  { unfold ids, cs. rewrite !map_map. cbn [e_id ecell_of]. change (fun x => ac_id x) with ac_id. rewrite E1. apply live_list_ids; auto. }
  assert (F : Forall2 (fun x ac => ac_id ac = cb_id x /\ ac_bounds ac = cb_bounds x) (live_list m) acs).
  { clear - E1 E2. revert acs E1 E2. generalize (live_list m). induction l as [|x l IH]; intros [|ac acs] E1 E2; try discriminate; constructor.
    - cbn in *. injection E1. injection E2. auto.
    - apply IH; cbn in *; congruence. }
  assert (P : forall x ac, In (x, ac) (combine (live_list m) acs) -> ac_id ac = cb_id x /\ ac_bounds ac = cb_bounds x).
  { clear - F. induction F as [|x ac l l' H F IH]; cbn; [intros ? ? []|]. intros x' ac' [E|H']; [injection E as <- <-; auto|auto]. }
  split; auto. destruct I as (I1 & _). split.
  - intros c Hc. unfold cs in Hc. rewrite map_map in Hc. apply in_map_iff in Hc as (ac & <- & Hac).
    assert (X : exists x, In x (live_list m) /\ ac_id ac = cb_id x /\ ac_bounds ac = cb_bounds x).
    { clear - F Hac. induction F as [|x a l l' H F IH]; [destruct Hac|]. destruct Hac as [->|Hac].
      - exists x. split; [left; auto|auto].
      - destruct (IH Hac) as (y & Hy & ?). exists y. split; [right; auto|auto]. }
    destruct X as (x & Hx & Ei & Eb). apply live_list_In in Hx as (i & L). exists i, x. split; auto. cbn [e_id e_bounds ecell_of].
    rewrite Ei, Eb. split; auto. apply (I1 _ _ L).
  - intros i x L. assert (Hx : In x (live_list m)) by (apply live_list_In; eauto).
    assert (X : exists ac, In ac acs /\ ac_id ac = cb_id x /\ ac_bounds ac = cb_bounds x).
    { clear - F Hx. induction F as [|y a l l' H F IH]; [destruct Hx|]. destruct Hx as [->|Hx].
      - exists a. split; [left; auto|auto].
      - destruct (IH Hx) as (z & Hz & ?). exists z. split; [right; auto|auto]. }
    destruct X as (ac & Hac & Ei & Eb).
    exists (mkE (without_times (ac_bounds ac)) (e_data (ecell_of ac)) (ac_id ac)). split.
    + unfold cs. rewrite map_map. apply in_map_iff. exists ac. auto.
    + cbn. rewrite Ei, Eb. split; auto. apply (I1 _ _ L).
Qed.

Lemma region_times b : region (without_times b) = region b.
Proof. reflexivity. Qed.

Lemma loaded_contacts R m cs : mesh_inv m -> graph_exact R m -> same_cells m cs ->
  lists_contacts R cs (graph_to_json (ng m)).
Proof.
  intros I (_ & _ & X) (S1 & S2). destruct I as (I1 & _ & f & Rp & _).
  pose proof (rep_to_json _ _ _ Rp) as (R1 & R2 & R3). split; [|split; [|split]]; auto.
  - intros k. rewrite R2. split.
    + intros (i & -> & L). apply live_of_inv in L as (n & x & -> & L). destruct (S2 n x L) as (c & Hc & Ec & _).
      exists c. rewrite Ec. auto.
    + intros (c & -> & Hc). destruct (S1 c Hc) as (i & x & L & -> & _). exists (Z.of_nat i). split; auto.
      eapply live_of_cell; eauto.
  - intros c d Hc. destruct (S1 c Hc) as (i & x & L & Ei & Eb).
    destruct (X i x d L) as (l & El & Nl & Il). exists l. rewrite Ei. split; [|split; auto].
    + assert (Li : live_of (cells m) (Z.of_nat i)) by (eapply live_of_cell; eauto).
      assert (Hd : In (code d) dirs) by (apply In_dirs_code; eauto).
      rewrite (rep_get KI _ _ _ _ _ Rp Li Hd) in El. injection El as <-.
      apply (rep_get KS _ _ _ _ _ (rep_to_json _ _ _ Rp)); auto.
    + intros z. rewrite Il. split.
      * intros (j & y & -> & Lj & T). destruct (S2 j y Lj) as (c' & Hc' & Ec' & Eb').
        exists c'. rewrite Eb, Eb', !region_times. auto.
      * intros (c' & -> & Hc' & T). destruct (S1 c' Hc') as (j & y & Lj & Ej & Eb').
        rewrite Eb, Eb', !region_times in T. eauto.
  - intros c mp Hc Em. destruct (S1 c Hc) as (i & x & L & Ei & _).
    destruct (R3 (Z.of_nat i)) as (mp' & Em' & M1 & M2 & _); [eapply live_of_cell; eauto|].
    rewrite Ei, Em' in Em. injection Em as <-. split; auto. intros k. rewrite M2. split.
    + intros (d & -> & Hd). apply In_dirs_code in Hd as (dd & ->). eauto.
    + intros (dd & ->). exists (code dd). split; auto. apply In_dirs_code; eauto.
Qed.

Lemma loaded_tiles whole m cs : mesh_tiles whole m -> same_cells m cs -> env_tiles whole cs.
Proof.
  intros (T1 & T2 & T3) (S1 & S2). split; [|split].
  - intros x y M. destruct (T1 x y M) as (i & c & L & Mc). destruct (S2 i c L) as (e & He & _ & Eb).
    exists e. rewrite Eb, region_times. auto.
  - intros e x y He M. destruct (S1 e He) as (i & c & L & _ & Eb). rewrite Eb, region_times in M. eapply T2; eauto.
  - intros e e' x y He He' M M'. destruct (S1 e He) as (i & c & L & Ei & Eb). destruct (S1 e' He') as (j & c' & L' & Ej & Eb').
    rewrite Eb, region_times in M. rewrite Eb', region_times in M'. rewrite Ei, Ej, (T3 i j c c' x y); auto.
Qed.

Lemma tiles_inside whole cs c : env_tiles whole cs -> In c cs -> plane_bounds (e_bounds c) ->
  (x0 whole <= long_min (e_bounds c) /\ long_max (e_bounds c) <= x1 whole /\
   y0 whole <= lat_min (e_bounds c) /\ lat_max (e_bounds c) <= y1 whole)%Q.
Proof.
  intros (_ & T & _) Hc P. pose proof (plane_region _ P) as (X0 & X1 & Y0 & Y1). destruct P as ((P1 & P2 & _) & _).
  assert (M : forall x y, (long_min (e_bounds c) < x <= long_max (e_bounds c))%Q ->
    (lat_min (e_bounds c) < y <= lat_max (e_bounds c))%Q -> mem whole x y).
  { intros x y Hx Hy. apply (T c); auto. unfold mem. rewrite X0, X1, Y0, Y1. auto. }
  set (w := long_min (e_bounds c)) in *. set (e := long_max (e_bounds c)) in *.
  set (s := lat_min (e_bounds c)) in *. set (n := lat_max (e_bounds c)) in *.
  pose proof (M e n ltac:(lra) ltac:(lra)) as (M1 & M2). split; [|split; [lra|split; [|lra]]].
  - destruct (Qlt_le_dec w (x0 whole)) as [L|]; auto.
    destruct (Qlt_le_dec (x0 whole) e) as [L'|L'].
    + pose proof (M (x0 whole) n ltac:(lra) ltac:(lra)) as (? & _). lra.
    + lra.
  - destruct (Qlt_le_dec s (y0 whole)) as [L|]; auto.
    destruct (Qlt_le_dec (y0 whole) n) as [L'|L'].
    + pose proof (M e (y0 whole) ltac:(lra) ltac:(lra)) as (_ & ?). lra.
    + lra.
Qed.

Theorem built_loads b cw ch srcs m acs cfg : admissible b cw ch -> reachable b cw ch srcs m ->
  map ac_id acs = map cb_id (live_list m) -> map ac_bounds acs = map cb_bounds (live_list m) ->
  (forall ac, In ac acs -> plain_data (e_data (ecell_of ac))) -> c_region cfg = b ->
  exists em, load_from_json (to_json (env_of cfg m acs)) = Ok em /\
    em_bounds em = b /\ em_config em = cfg /\ map e_data (em_cells em) = map e_data (map ecell_of acs) /\
    NoDup (map e_id (em_cells em)) /\
    (forall c, In c (em_cells em) -> 0 <= e_id c /\ plane_bounds (e_bounds c) /\ inside b (e_bounds c) /\
       on_grid b cw ch (e_bounds c) /\ proportioned cw ch (e_bounds c)) /\
    cells_apart (em_cells em) /\ env_tiles (region b) (em_cells em) /\
    (~ spans_globe b -> lists_contacts touches (em_cells em) (em_graph em)) /\
    (spans_globe b -> lists_contacts touches_mod (em_cells em) (em_graph em)).
Proof.
  intros A Rm E1 E2 Pd Ec. destruct (reachable_inv _ _ _ _ _ A Rm) as (I & Gl).
  destruct (loaded_cells m acs I E1 E2) as (Sc & Nd).
  assert (Pl0 : forall i c, live_cell m i c -> plane_bounds (without_times (cb_bounds c))).
  { intros i c L. destruct I as (I1 & _). destruct (I1 i c L) as (_ & ((R1 & R2) & K1 & K2 & _) & _).
    split; [cbn; auto|]. left; auto. }
  pose proof A as (((V1 & V2 & V3 & V4) & V5) & Hcw & Hch & _).
  set (cs := map (fun c => mkE (without_times (e_bounds c)) (e_data c) (e_id c)) (map ecell_of acs)) in *.
  exists (mkEM b cs (graph_to_json (ng m)) cfg).
  assert (Pl : forall c, In c cs -> plane_bounds (e_bounds c)).
  { intros c Hc. destruct (proj1 Sc c Hc) as (i & x & L & _ & ->). eapply Pl0; eauto. }
  assert (Ti : env_tiles (region b) cs).
  { eapply loaded_tiles; [|exact Sc]. apply (reachable_tiles _ _ _ _ _ A Rm). }
  split; [|split; [|split; [|split; [|split; [|split; [|split; [|split; [|split]]]]]]]]; auto; cbn [em_cells em_graph].
  - unfold load_from_json, to_json, env_of. cbn [j_config j_cells j_graph em_config em_cells em_graph].
    rewrite Ec, Boundary_ok by (auto; lra). cbn [bind].
    assert (E : mapM cell_from_json (map cell_to_json (map ecell_of acs)) = Ok cs).
    { unfold cs. assert (D : forall ac, In ac acs -> drawable (ac_bounds ac)).
      { intros ac Hac. assert (Hc : In (mkE (without_times (ac_bounds ac)) (e_data (ecell_of ac)) (ac_id ac)) cs).
        { unfold cs. rewrite map_map. apply in_map_iff. exists ac; auto. }
        apply Pl, plane_drawable in Hc. exact Hc. }
      clear - Pd D. induction acs as [|ac acs IH]; auto. cbn [map mapM].
      rewrite cell_round_trip by (try apply D; try apply Pd; left; auto). cbn [bind].
      rewrite IH; auto; intros; [apply Pd|apply D]; right; auto. }
    rewrite E. cbn [bind]. destruct b; reflexivity.
  - unfold cs. rewrite (map_map (fun c => mkE (without_times (e_bounds c)) (e_data c) (e_id c))). reflexivity.
  - intros c Hc. pose proof (Pl c Hc) as Pc. destruct (proj1 Sc c Hc) as (i & x & L & Ei & Eb).
    split; [lia|]. split; auto. split; [|].
    + pose proof (tiles_inside _ _ _ Ti Hc Pc) as T. cbn [region x0 x1 y0 y1] in T.
      destruct (qltb_spec (long_min b) (long_max b)); [|contradiction]. exact T.
    + pose proof (reachable_grid _ _ _ _ _ A Rm i x L) as G.
      pose proof (plane_region _ Pc) as (X0 & X1 & Y0 & Y1). rewrite <- region_times, <- Eb in G.
      unfold grid_box in G. rewrite X0, X1, Y0, Y1 in G. exact G.
  - intros c c' Hc Hc' N. destruct (proj1 Sc c Hc) as (i & x & L & Ei & Eb). destruct (proj1 Sc c' Hc') as (j & y & L' & Ej & Eb').
    apply sep_apart; auto using plane_proper. rewrite Eb, Eb', !region_times. destruct I as (_ & I2 & _). eapply I2; eauto. lia.
  - intros Ng. apply loaded_contacts; auto. eapply reachable_exact_regional; eauto.
  - intros Ng. apply loaded_contacts; auto. eapply reachable_exact_global; eauto.
Qed.

Corollary built_loads_sound b cw ch srcs m acs cfg : admissible b cw ch -> ~ spans_globe b -> reachable b cw ch srcs m ->
  map ac_id acs = map cb_id (live_list m) -> map ac_bounds acs = map cb_bounds (live_list m) ->
  (forall ac, In ac acs -> plain_data (e_data (ecell_of ac))) -> c_region cfg = b ->
  exists em, load_from_json (to_json (env_of cfg m acs)) = Ok em /\ em_config em = cfg /\ em_bounds em = b /\
    sound_mesh em /\ env_tiles (region b) (em_cells em) /\
    (forall c, In c (em_cells em) -> 0 <= e_id c /\ inside b (e_bounds c) /\
       on_grid b cw ch (e_bounds c) /\ proportioned cw ch (e_bounds c)).
Proof.
  intros A Ng Rm E1 E2 Pd Ec.
  destruct (built_loads b cw ch srcs m acs cfg A Rm E1 E2 Pd Ec) as (em & L & Bd & Cf & _ & Nd & F & Ap & Ti & Ex & _).
  exists em. split; auto. split; auto. split; auto. split; [|split; auto].
  - split; [auto|split; [|split; auto]]. intros c Hc. apply F; auto.
  - intros c Hc. destruct (F c Hc) as (? & _ & ? & ? & ?). auto.
Qed.

(** ** Refinement keeps a loaded mesh in order *)
Lemma replaced_inside_of m c m' x : cells_inv m -> In c (em_cells m) -> replaced m c m' -> In x (em_cells m') ->
  (In x (em_cells m) /\ e_id x <> e_id c) \/
  (exists q, quarter q (region (e_bounds c)) (region (e_bounds x)) /\ e_id c < e_id x /\
     forall y, In y (em_cells m) -> e_id y < e_id x).
Proof.
  intros I Hc (l1 & l2 & sw & nw & se & ne & E & E' & Q1 & Q2 & Q3 & Q4 & Lt) Hx.
  rewrite E' in Hx. rewrite !in_app_iff in Hx. destruct Hx as [Hx|[Hx|Hx]].
  - left. rewrite E. split; [apply in_or_app; auto|]. destruct I as (N & _). rewrite E in N.
    unfold ids in N. rewrite map_app in N. cbn in N. apply NoDup_remove_2 in N. intros X. apply N. rewrite <- X, <- map_app.
    apply in_map, in_or_app; auto.
  - left. rewrite E. split; [apply in_or_app; right; right; auto|]. destruct I as (N & _). rewrite E in N.
    unfold ids in N. rewrite map_app in N. cbn in N. apply NoDup_remove_2 in N. intros X. apply N. rewrite <- X, <- map_app.
    apply in_map, in_or_app; auto.
  - right. destruct Hx as [<-|[<-|[<-|[<-|[]]]]]; eexists; (split; [match goal with H : quarter_of _ c ?k |- quarter _ _ (region (e_bounds ?k)) => apply H end|]);
    (split; [apply Lt; cbn; auto|intros; apply Lt; cbn; auto]).
Qed.

Lemma replaced_inside m c m' x : env_inv m -> In c (em_cells m) -> replaced m c m' -> In x (em_cells m') ->
  (In x (em_cells m) /\ e_id x <> e_id c) \/
  (exists q, quarter q (region (e_bounds c)) (region (e_bounds x)) /\ e_id c < e_id x /\
     forall y, In y (em_cells m) -> e_id y < e_id x).
Proof. intros I. apply replaced_inside_of, env_cells_inv, I. Qed.

Lemma replaced_tiles_of whole m c m' : cells_inv m -> In c (em_cells m) -> replaced m c m' ->
  env_tiles whole (em_cells m) -> env_tiles whole (em_cells m').
Proof.
  intros I Hc Rp (T1 & T2 & T3). pose proof Rp as (l1 & l2 & sw & nw & se & ne & E & E' & Q1 & Q2 & Q3 & Q4 & Lt).
  assert (Pc : proper (region (e_bounds c))) by (apply plane_proper; apply I; auto).
  set (kid := fun q => match q with qSW => sw | qNW => nw | qSE => se | qNE => ne end).
  assert (Hq : forall q, quarter q (region (e_bounds c)) (region (e_bounds (kid q)))).
  { intros []; [apply Q2|apply Q4|apply Q1|apply Q3]. }
  assert (Hk : forall q, In (kid q) (em_cells m')).
  { intros q. rewrite E'. apply in_or_app; right; apply in_or_app; right. destruct q; cbn; auto. }
  assert (Hn : forall x, In x (em_cells m') -> (In x (em_cells m) /\ e_id x <> e_id c) \/ exists q, x = kid q).
  { intros x Hx. rewrite E' in Hx. apply in_app_or in Hx as [Hx|Hx]; [|apply in_app_or in Hx as [Hx|Hx]].
    - left. destruct (replaced_inside_of m c m' x I Hc Rp) as [H|(q & _ & _ & H)]; auto; [rewrite E'; apply in_or_app; auto|].
      exfalso. specialize (H x). rewrite E in H. enough (e_id x < e_id x) by lia. apply H, in_or_app; auto.
    - left. destruct (replaced_inside_of m c m' x I Hc Rp) as [H|(q & _ & _ & H)]; auto; [rewrite E'; apply in_or_app; right; apply in_or_app; auto|].
      exfalso. specialize (H x). rewrite E in H. enough (e_id x < e_id x) by lia. apply H, in_or_app; right; right; auto.
    - right. destruct Hx as [<-|[<-|[<-|[<-|[]]]]]; [exists qSW|exists qNW|exists qSE|exists qNE]; auto. }
  split; [|split].
  - intros x y M. destruct (T1 x y M) as (e & He & Me). rewrite E in He. apply in_app_or in He as [He|[<-|He]].
    + exists e. split; auto. rewrite E'. apply in_or_app; auto.
    + destruct (quarter_cover (fun q => region (e_bounds (kid q))) _ x y Pc Hq Me) as (q & Mq). exists (kid q). auto.
    + exists e. split; auto. rewrite E'. apply in_or_app; right; apply in_or_app; auto.
  - intros e x y He M. apply Hn in He as [[He _]|(q & ->)]; [eapply T2; eauto|].
    apply (T2 c); auto. eapply quarter_mem; eauto.
  - intros e e' x y He He' M M'. apply Hn in He as [[He Ne]|(q & ->)]; apply Hn in He' as [[He' Ne']|(q' & ->)].
    + eapply T3; eauto.
    + exfalso. apply Ne. apply (T3 e c x y); auto. eapply quarter_mem; eauto.
    + exfalso. apply Ne'. apply (T3 e' c x y); auto. eapply quarter_mem; eauto.
    + destruct (quad_eq_dec q q') as [->|N]; auto. exfalso.
      pose proof (siblings_sep q q' _ _ _ Pc (Hq q) (Hq q') N) as S. unfold sep, mem in *. lra.
Qed.

Lemma replaced_tiles whole m c m' : env_inv m -> In c (em_cells m) -> replaced m c m' ->
  env_tiles whole (em_cells m) -> env_tiles whole (em_cells m').
Proof. intros I. apply replaced_tiles_of, env_cells_inv, I. Qed.

Theorem esplits_all whole m m' : env_inv m -> esplits m m' ->
  env_inv m' /\ (env_tiles whole (em_cells m) -> env_tiles whole (em_cells m')) /\
  em_bounds m' = em_bounds m /\ em_config m' = em_config m /\
  (forall b w h, (forall c, In c (em_cells m) -> on_grid b w h (e_bounds c)) ->
                 forall c, In c (em_cells m') -> on_grid b w h (e_bounds c)) /\
  (forall w h, (forall c, In c (em_cells m) -> proportioned w h (e_bounds c)) ->
               forall c, In c (em_cells m') -> proportioned w h (e_bounds c)) /\
  ((forall c, In c (em_cells m) -> 0 <= e_id c) -> forall c, In c (em_cells m') -> 0 <= e_id c).
Proof.
  intros I H. revert I. induction H as [m|m m1 m2 k H IH E]; intros I; [split; [exact I|split; [auto|split; [auto|split; [auto|split; [auto|split; auto]]]]]|].
  destruct (IH I) as (I1 & T1 & B1 & C1 & G1 & S1 & P1).
  destruct (esplit_cell _ _ _ I1 E) as (c & Hc & ->).
  destruct (esplit_ok m1 c I1 Hc) as (m2' & E' & I' & Rp & Bd & Cf & _). rewrite E in E'. injection E' as <-.
  assert (Pc : plane_bounds (e_bounds c)) by (apply I1; auto).
  pose proof (plane_region _ Pc) as (X0 & X1 & Y0 & Y1).
  split; auto. split; [|split; [congruence|split; [congruence|split; [|split]]]].
  - intros T. apply (replaced_tiles whole m1 c m2 I1 Hc Rp). auto.
  - intros b w h Hg x Hx. specialize (G1 b w h Hg).
    pose proof (plane_region _ (proj1 (proj2 I') x Hx)) as (X0' & X1' & Y0' & Y1').
    destruct (replaced_inside _ _ _ _ I1 Hc Rp Hx) as [[Hx' _]|(q & Hq & _)]; auto.
    destruct (G1 c Hc) as (i & j & Hij). pose proof (quarter_inside q _ _ (plane_proper _ Pc) Hq) as Q.
    rewrite X0, X1, Y0, Y1, X0', X1', Y0', Y1' in Q. exists i, j. lra.
  - intros w h Hp x Hx. specialize (S1 w h Hp).
    pose proof (plane_region _ (proj1 (proj2 I') x Hx)) as (X0' & X1' & Y0' & Y1').
    destruct (replaced_inside _ _ _ _ I1 Hc Rp Hx) as [[Hx' _]|(q & Hq & _)]; auto.
    pose proof (S1 c Hc) as Sc. pose proof (quarter_size q _ _ Hq) as [Q Q'].
    rewrite X0, X1, X0', X1' in Q. rewrite Y0, Y1, Y0', Y1' in Q'.
    unfold proportioned in *. rewrite Q, Q'. lra.
  - intros Hp x Hx. specialize (P1 Hp).
    destruct (replaced_inside _ _ _ _ I1 Hc Rp Hx) as [[Hx' _]|(q & _ & Hlt & _)]; auto.
    specialize (P1 c Hc). lia.
Qed.

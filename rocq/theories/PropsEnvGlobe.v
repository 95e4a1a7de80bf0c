(** Property theorems C27, continued: which splits of a loaded mesh around the globe keep
    its graph exact. *)
From Verif Require Import Base Geo Graph Cell Builder Env Spec MeshSpec EnvSpec CrossSpec CrossPipeSpec EnvGlobeSpec ChainProofs QLib CaseProofs SplitGeo Invariant Consequences
  EnvInv EnvMerge EnvLink EnvGlobe EnvGlobeProofs EnvGlobeSound Examples ExamplesEnv PropsEnv.
Close Scope string_scope.
Open Scope Z_scope.

(** C27.  The graph of a loaded mesh around the globe is exact, and stays so under any
    number of splits of cells that do not reach the antimeridian; the cells keep tiling
    the region. *)
Theorem C27_inland_partial : forall b cw ch srcs m acs cfg em em',
  admissible b cw ch -> spans_globe b -> reachable b cw ch srcs m ->
  map ac_id acs = map cb_id (live_list m) -> map ac_bounds acs = map cb_bounds (live_list m) ->
  (forall ac, In ac acs -> plain_data (e_data (ecell_of ac))) -> c_region cfg = b ->
  load_from_json (to_json (env_of cfg m acs)) = Ok em ->
  esplits_where (fun _ c => inland c) em em' ->
  lists_contacts touches_mod (em_cells em') (em_graph em') /\ NoDup (map e_id (em_cells em')) /\
  cells_apart (em_cells em') /\ env_tiles (region b) (em_cells em').
Proof.
  intros b cw ch srcs m acs cfg em em' A G Rm E1 E2 Pd Ec L H.
  destruct (loaded_globe _ _ _ _ _ _ _ _ A G Rm E1 E2 Pd Ec L) as (S & T).
  destruct (inland_history b em em' G S T H) as ((N & _ & Ap & X) & T'). auto.
Qed.
Print Assumptions C27_inland_partial.

(** C27.  In such a mesh every split succeeds and replaces the cell by its quarters, but it
    leaves the graph exact if and only if the cell does not reach the antimeridian. *)
Theorem C27_exactly_inland : forall b cw ch srcs m acs cfg em em' c,
  admissible b cw ch -> spans_globe b -> reachable b cw ch srcs m ->
  map ac_id acs = map cb_id (live_list m) -> map ac_bounds acs = map cb_bounds (live_list m) ->
  (forall ac, In ac acs -> plain_data (e_data (ecell_of ac))) -> c_region cfg = b ->
  load_from_json (to_json (env_of cfg m acs)) = Ok em ->
  esplits_where (fun _ c => inland c) em em' -> In c (em_cells em') ->
  exists em2, esplit_and_replace em' (KS (e_id c)) = Ok em2 /\ replaced em' c em2 /\
    (lists_contacts touches_mod (em_cells em2) (em_graph em2) <-> inland c).
Proof.
  intros b cw ch srcs m acs cfg em em' c A G Rm E1 E2 Pd Ec L H Hc.
  destruct (loaded_globe _ _ _ _ _ _ _ _ A G Rm E1 E2 Pd Ec L) as (S & T).
  destruct (inland_history b em em' G S T H) as (S' & T').
  destruct (globe_split_exactly b em' c G S' T' Hc) as (em2 & E & Rp & _ & X & _). exists em2. auto.
Qed.
Print Assumptions C27_exactly_inland.

(** The loaded mesh of eight cells of 90 degrees: cell 1 lies inland, cell 0 does not. *)
Example C27_case : exists em, load_from_json (to_json (env_of gl_cfg gx_m0 gl_acs)) = Ok em /\
  (exists em' c em2, In c (em_cells em) /\ e_id c = 1 /\ inland c /\ esplit_and_replace em (KS 1) = Ok em' /\
     lists_contacts touches_mod (em_cells em') (em_graph em') /\ List.length (em_cells em') = 11%nat /\
     exists c', In c' (em_cells em') /\ e_id c' = 0 /\ ~ inland c' /\ esplit_and_replace em' (KS 0) = Ok em2 /\
     ~ lists_contacts touches_mod (em_cells em2) (em_graph em2)).
Proof.
  exists gl. assert (L : load_from_json (to_json (env_of gl_cfg gx_m0 gl_acs)) = Ok gl) by (vm_compute; reflexivity).
  split; [exact L|].
  assert (R : reachable gx_region 90 90 [] gx_m0) by (exists gx_m0; split; [exact gx_built|constructor]).
  assert (E1 : map ac_id gl_acs = map cb_id (live_list gx_m0)) by (vm_compute; reflexivity).
  assert (E2 : map ac_bounds gl_acs = map cb_bounds (live_list gx_m0)) by (vm_compute; reflexivity).
  assert (Pd : forall ac, In ac gl_acs -> plain_data (e_data (ecell_of ac))).
  { assert (H : forallb (fun ac => match ac_data ac with [] => true | _ => false end) gl_acs = true) by (vm_compute; reflexivity).
    rewrite forallb_forall in H. intros ac Hac. specialize (H ac Hac). unfold ecell_of. destruct (ac_data ac); [|discriminate].
    split; [constructor|intros n []]. }
  assert (H1 : exists c, In c (em_cells gl) /\ e_id c = 1 /\ inland c).
  { eexists. split; [right; left; reflexivity|]. split; [reflexivity|]. split; vm_compute; reflexivity. }
  destruct H1 as (c & Hc & Ec & Ic).
  destruct (C27_exactly_inland _ _ _ _ _ _ gl_cfg gl gl c gx_admissible gx_global R E1 E2 Pd eq_refl L (ewhere_none _ gl) Hc) as (m1 & S1 & _ & X1).
  rewrite Ec in S1. exists m1, c.
  assert (Hs : esplits_where (fun _ c => inland c) gl m1).
  { eapply ewhere_more; [apply ewhere_none|exact Hc|exact Ic|rewrite Ec; exact S1]. }
  pose proof (eq_sym (f_equal get_env S1)) as S1'. change (get_env (Ok m1)) with m1 in S1'.
  assert (H0 : exists c', In c' (em_cells m1) /\ e_id c' = 0 /\ ~ inland c').
  { rewrite S1'. eexists. split; [vm_compute; left; reflexivity|]. split; [reflexivity|]. intros (I & _). vm_compute in I. discriminate. }
  destruct H0 as (c' & Hc' & Ec' & Ic').
  destruct (C27_exactly_inland _ _ _ _ _ _ gl_cfg gl m1 c' gx_admissible gx_global R E1 E2 Pd eq_refl L Hs Hc') as (m2 & S2 & _ & X2).
  exists m2. split; [exact Hc|]. split; [exact Ec|]. split; [exact Ic|]. split; [exact S1|]. split; [apply X1; exact Ic|].
  split; [rewrite S1'; vm_compute; reflexivity|].
  exists c'. rewrite Ec' in S2. split; [exact Hc'|]. split; [exact Ec'|]. split; [exact Ic'|]. split; [exact S2|].
  intros Lc. apply Ic', X2, Lc.
Qed.

(** C27.  Whatever cells are split, at the antimeridian or not, and however often, the next
    split of any cell succeeds and replaces it by its quarters.  The graph lists only
    contacts, each on both sides, and misses none but contacts across the antimeridian.
    The cells keep tiling the region. *)
Theorem C27_sound : forall b cw ch srcs m acs cfg em em',
  admissible b cw ch -> spans_globe b -> reachable b cw ch srcs m ->
  map ac_id acs = map cb_id (live_list m) -> map ac_bounds acs = map cb_bounds (live_list m) ->
  (forall ac, In ac acs -> plain_data (e_data (ecell_of ac))) -> c_region cfg = b ->
  load_from_json (to_json (env_of cfg m acs)) = Ok em ->
  esplits em em' ->
  lists_only_contacts touches_mod (em_cells em') (em_graph em') /\ lists_plain (em_cells em') (em_graph em') /\
  NoDup (map e_id (em_cells em')) /\ cells_apart (em_cells em') /\ env_tiles (region b) (em_cells em') /\
  forall c, In c (em_cells em') -> exists em2, esplit_and_replace em' (KS (e_id c)) = Ok em2 /\ replaced em' c em2.
Proof.
  intros b cw ch srcs m acs cfg em em' A G Rm E1 E2 Pd Ec L H.
  destruct (loaded_globe _ _ _ _ _ _ _ _ A G Rm E1 E2 Pd Ec L) as (S & T).
  destruct (globe_history (region b) em em' (globe_inv_of em S) T H) as (I & T').
  destruct (globe_inv_lists em' I) as (G1 & G2). split; [exact G1|]. split; [exact G2|].
  destruct I as (Ic & W & Gr). pose proof Ic as (N & P & Sp). split; [exact N|].
  split; [apply apart_sep; auto|]. split; [exact T'|].
  intros c Hc. destruct (globe_any_split em' c (conj Ic (conj W Gr)) Hc) as (x & Ex & _ & Rp & _). eauto.
Qed.
Print Assumptions C27_sound.

(** The mesh of eight cells after splitting the cell 0, at the antimeridian, and its quarter 8:
    quarter 9 misses the contact with cell 3 across the antimeridian, and keeps
    those inland. *)
Example C27_sound_case : exists em1 em2,
  load_from_json (to_json (env_of gl_cfg gx_m0 gl_acs)) = Ok gl /\ esplit_and_replace gl (KS 0) = Ok em1 /\
  esplit_and_replace em1 (KS 8) = Ok em2 /\ esplits gl em2 /\ List.length (em_cells em2) = 14%nat /\
  lists_only_contacts touches_mod (em_cells em2) (em_graph em2) /\ lists_plain (em_cells em2) (em_graph em2) /\
  ~ lists_contacts touches_mod (em_cells em2) (em_graph em2).
Proof.
  assert (L : load_from_json (to_json (env_of gl_cfg gx_m0 gl_acs)) = Ok gl) by (vm_compute; reflexivity).
  assert (R : reachable gx_region 90 90 [] gx_m0) by (exists gx_m0; split; [exact gx_built|constructor]).
  assert (E1 : map ac_id gl_acs = map cb_id (live_list gx_m0)) by (vm_compute; reflexivity).
  assert (E2 : map ac_bounds gl_acs = map cb_bounds (live_list gx_m0)) by (vm_compute; reflexivity).
  assert (Pd : forall ac, In ac gl_acs -> plain_data (e_data (ecell_of ac))).
  { assert (H : forallb (fun ac => match ac_data ac with [] => true | _ => false end) gl_acs = true) by (vm_compute; reflexivity).
    rewrite forallb_forall in H. intros ac Hac. specialize (H ac Hac). unfold ecell_of. destruct (ac_data ac); [|discriminate].
    split; [constructor|intros n []]. }
  set (em1 := get_env (esplit_and_replace gl (KS 0))). set (em2 := get_env (esplit_and_replace em1 (KS 8))).
  assert (S1 : esplit_and_replace gl (KS 0) = Ok em1) by (vm_compute; reflexivity).
  assert (S2 : esplit_and_replace em1 (KS 8) = Ok em2) by (vm_compute; reflexivity).
  assert (H : esplits gl em2) by (eapply esplits_more; [eapply esplits_more; [apply esplits_none|exact S1]|exact S2]).
  exists em1, em2. split; [exact L|]. split; [exact S1|]. split; [exact S2|]. split; [exact H|]. split; [vm_compute; reflexivity|].
  destruct (C27_sound _ _ _ _ _ _ gl_cfg gl em2 gx_admissible gx_global R E1 E2 Pd eq_refl L H) as (G1 & G2 & _).
  split; [exact G1|]. split; [exact G2|].
  intros (_ & _ & X & _).
  assert (Hn : exists c c', In c (em_cells em2) /\ In c' (em_cells em2) /\ e_id c' = 3 /\
     get_neighbours (em_graph em2) (KS (e_id c)) (KS (code dW)) = Ok [] /\
     touches_mod dW (region (e_bounds c)) (region (e_bounds c'))).
  { eexists. eexists. split; [vm_compute; do 7 right; left; reflexivity|]. split; [vm_compute; do 2 right; left; reflexivity|].
    split; [reflexivity|]. split; [vm_compute; reflexivity|]. exists (-1). split; [vm_compute; reflexivity|].
    exists (-20)%Q. vm_compute. repeat split; discriminate || reflexivity. }
  destruct Hn as (c & c' & Hc & Hc' & Ec' & En & T). destruct (X c dW Hc) as (l & El & _ & Y). rewrite En in El. injection El as <-.
  apply (proj2 (Y (e_id c'))). exists c'. split; [reflexivity|]. split; [exact Hc'|exact T].
Qed.

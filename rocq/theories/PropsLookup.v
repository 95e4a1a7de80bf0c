(** Property theorems C92: looking up cells in a Mesh. *)
From Verif Require Import Base Geo Graph Cell Loaders Builder Env Spec MeshSpec EnvSpec DataSpec QLib Examples PropsMesh MeshLookup.
From Coq Require Import Sorting.Sorted.
Open Scope string_scope.

(** C92.  [get_cellboxes] lists the cells that were not split, each once, in the order of
    their positions. *)
Lemma listed_from (cs : list (option cellbox)) : forall k, exists l, StronglySorted lt l /\ Forall2 (fun i c => (k <= i)%nat /\ nth_error cs (i - k) = Some (Some c)) l (flat_map (fun c => match c with Some c => [c] | None => [] end) cs) /\
  forall i c, nth_error cs i = Some (Some c) -> In (k + i)%nat l.
Proof.
  induction cs as [|c cs IH]; intros k.
  - exists []. repeat split; [constructor|constructor|intros [|i] c H; discriminate].
  - destruct (IH (S k)) as (l & S & F & A).
    assert (F' : Forall2 (fun i c0 => (k <= i)%nat /\ nth_error (c :: cs) (i - k) = Some (Some c0)) l (flat_map (fun c => match c with Some c => [c] | None => [] end) cs)).
    { clear - F. induction F as [|i c0 l l' [H1 H2] F IH]; constructor; [|exact IH]. split; [lia|]. replace (i - k)%nat with (Datatypes.S (i - Datatypes.S k)) by lia. exact H2. }
    destruct c as [c|].
    + exists (k :: l). split; [|split].
      * constructor; [exact S|]. apply Forall_forall. intros i I. clear - F I. induction F as [|j c0 l l' [H _] F IH]; [destruct I|]. destruct I as [<-|I]; [lia|apply IH, I].
      * cbn [flat_map app]. constructor; [|exact F']. split; [lia|]. rewrite Nat.sub_diag. reflexivity.
      * intros [|i] c0 H; cbn in H; [left; lia|]. right. replace (k + Datatypes.S i)%nat with (Datatypes.S k + i)%nat by lia. eapply A, H.
    + exists l. split; [exact S|]. split; [exact F'|]. intros [|i] c0 H; cbn in H; [discriminate|]. replace (k + Datatypes.S i)%nat with (Datatypes.S k + i)%nat by lia. eapply A, H.
Qed.
Theorem C92_listed : forall m, exists l, StronglySorted lt l /\ Forall2 (live_cell m) l (get_cellboxes m) /\ forall i c, live_cell m i c -> In i l.
Proof.
  intros m. destruct (listed_from (cells m) 0) as (l & S & F & A). exists l. split; [exact S|]. split; [|intros i c H; exact (A i c H)].
  unfold get_cellboxes. clear - F. induction F as [|i c l l' [_ H] F IH]; constructor; [|exact IH]. rewrite Nat.sub_0_r in H. exact H.
Qed.
Print Assumptions C92_listed.

(** But in no mesh can the cell of a point be looked up, and no points can be handed to
    the cells: a CellBox has neither [contains_point] nor [long]. *)
Lemma not_empty m : (exists i c, live_cell m i c) -> exists c l, get_cellboxes m = c :: l.
Proof.
  intros (i & c & H). destruct (C92_listed m) as (l & _ & F & A). specialize (A i c H). destruct F as [|j c' l l' _ F]; [destruct A|eauto].
Qed.
Theorem C92_lookup_refuted : forall m long lat d, (exists i c, live_cell m i c) ->
  get_cellbox cellbox_attributes m long lat = Err AttributeError /\ add_data_points cellbox_attributes m d = Err AttributeError.
Proof. intros m long lat d H. destruct (not_empty m H) as (c & l & E). unfold get_cellbox, add_data_points. rewrite E. split; reflexivity. Qed.
Print Assumptions C92_lookup_refuted.
(** In particular in none that was built and split. *)
Theorem C92_built_refuted : forall b cw ch srcs m long lat d, admissible b cw ch -> (exists x y, mem (region b) x y) -> reachable b cw ch srcs m ->
  get_cellbox cellbox_attributes m long lat = Err AttributeError /\ add_data_points cellbox_attributes m d = Err AttributeError.
Proof.
  intros b cw ch srcs m long lat d A (x & y & I) R. apply C92_lookup_refuted. destruct (C10_live_cells_tile b cw ch srcs m A R) as ((T & _) & _).
  destruct (T x y I) as (i & c & L & _). eauto.
Qed.
Print Assumptions C92_built_refuted.

(** With the method of AggregatedCellBox it would return the first cell around the point. *)
Theorem C92_lookup_partial : forall attributes m long lat, In "contains_point" attributes ->
  let around c := contains_point (mkE (cb_bounds c) [] (cb_id c)) lat long = true in
  match get_cellbox attributes m long lat with
  | Ok c => exists i, live_cell m i c /\ around c /\ forall j c', (j < i)%nat -> live_cell m j c' -> ~ around c'
  | Err e => e = IndexError /\ forall i c, live_cell m i c -> ~ around c
  end.
Proof.
  intros attributes m long lat Ha around. unfold get_cellbox.
  assert (At : attribute attributes "contains_point" = Ok tt).
  { unfold attribute. assert (X : existsb (String.eqb "contains_point") attributes = true) by (apply existsb_exists; exists "contains_point"; split; [exact Ha|reflexivity]). rewrite X. reflexivity. }
  match goal with |- context [foldM ?f [] _] => set (g := f) end.
  assert (Fo : forall l sel, foldM g sel l = Ok (sel ++ filter (fun c => contains_point (mkE (cb_bounds c) [] (cb_id c)) lat long) l)%list).
  { induction l as [|c l IH]; intros sel; [cbn; rewrite app_nil_r; reflexivity|]. cbn [foldM filter].
    assert (E : g sel c = Ok (if contains_point (mkE (cb_bounds c) [] (cb_id c)) lat long then (sel ++ [c])%list else sel)) by (unfold g; rewrite At; reflexivity).
    rewrite E. cbn [bind]. destruct (contains_point _ lat long); rewrite IH; [rewrite <- app_assoc; reflexivity|reflexivity]. }
  rewrite Fo. cbn [bind app]. destruct (C92_listed m) as (l & S & F & A).
  assert (G : match filter (fun c => contains_point (mkE (cb_bounds c) [] (cb_id c)) lat long) (get_cellboxes m) with
    | [] => forall i c, In i l -> live_cell m i c -> ~ around c
    | c :: _ => exists i, In i l /\ live_cell m i c /\ around c /\ forall j c', In j l -> (j < i)%nat -> live_cell m j c' -> ~ around c' end).
  { clear - F S. assert (U : forall i c c', live_cell m i c -> live_cell m i c' -> c = c') by (unfold live_cell; congruence).
    revert S. induction F as [|i c l cs L F IH]; intros S; [intros i c []|]. inversion S as [|? ? S' Fa]; subst. specialize (IH S').
    cbn [filter]. destruct (contains_point _ lat long) eqn:E.
    - exists i. split; [left; reflexivity|]. split; [exact L|]. split; [exact E|]. intros j c' [->|I] Lt _; [lia|]. rewrite Forall_forall in Fa. specialize (Fa j I). lia.
    - destruct (filter _ cs) as [|c1 r].
      + intros j c' [<-|I] L'; [rewrite (U _ _ _ L' L); unfold around; rewrite E; discriminate|apply (IH j c' I L')].
      + destruct IH as (k & Ik & Lk & Ak & Mk). exists k. split; [right; exact Ik|]. split; [exact Lk|]. split; [exact Ak|]. intros j c' [<-|I] Lt L'; [rewrite (U _ _ _ L' L); unfold around; rewrite E; discriminate|].
        apply (Mk j c' I Lt L'). }
  destruct (filter _ _) as [|c r].
  - split; [reflexivity|]. intros i c L. exact (G i c (A i c L) L).
  - destruct G as (i & _ & L & Ac & M). exists i. split; [exact L|]. split; [exact Ac|]. intros j c' Lt L'. exact (M j c' (A j c' L') Lt L').
Qed.
Print Assumptions C92_lookup_partial.
(** And with the attributes of the old CellBox every row over the region would be given to
    exactly one cell, and the other rows to none. *)
Lemma mapM_all {A B} (f : A -> res B) (g : A -> B) l : (forall x, f x = Ok (g x)) -> mapM f l = Ok (map g l).
Proof. intros H. induction l as [|x l IH]; [reflexivity|]. cbn [mapM map]. rewrite H. cbn [bind]. rewrite IH. reflexivity. Qed.
Theorem C92_rows_partial : forall attributes b cw ch srcs m d,
  (forall a, In a ["long"; "width"; "lat"; "height"; "add_data_points"] -> In a attributes) -> admissible b cw ch -> reachable b cw ch srcs m ->
  exists l, add_data_points attributes m d = Ok l /\ map fst l = get_cellboxes m /\
    (forall c r p, In (c, r) l -> In p r -> In p d /\ mem (region b) (p_long p) (p_lat p)) /\
    (forall p, In p d -> mem (region b) (p_long p) (p_lat p) -> exists k c r, nth_error l k = Some (c, r) /\ In p r /\
       forall k' c' r', nth_error l k' = Some (c', r') -> In p r' -> k' = k).
Proof.
  intros attributes b cw ch srcs m d Ha A R. destruct (C10_live_cells_tile b cw ch srcs m A R) as ((T1 & T2 & T3) & _).
  assert (At : forall n, In n ["long"; "width"; "lat"; "height"; "add_data_points"] -> attribute attributes n = Ok tt).
  { intros n I. unfold attribute. assert (X : existsb (String.eqb n) attributes = true) by (apply existsb_exists; exists n; split; [apply Ha, I|apply String.eqb_refl]). rewrite X. reflexivity. }
  set (g := fun c => (c, filter (fun p => qltb (long_min (cb_bounds c)) (p_long p) && qleb (p_long p) (long_min (cb_bounds c) + get_width (cb_bounds c)) &&
                               (qltb (lat_min (cb_bounds c)) (p_lat p) && qleb (p_lat p) (lat_min (cb_bounds c) + get_height (cb_bounds c)))) d)).
  exists (map g (get_cellboxes m)). split.
  { unfold add_data_points. apply mapM_all. intros c. rewrite !At by (cbn; tauto). reflexivity. }
  split; [rewrite map_map; apply map_id|].
  assert (G : forall c p, In p (snd (g c)) <-> In p d /\ mem (region (cb_bounds c)) (p_long p) (p_lat p)).
  { intros c p. unfold g. cbn [snd]. rewrite filter_In, !Bool.andb_true_iff, !qltb_true, !qleb_true. apply and_iff_compat_l.
    unfold mem, region, get_width, get_height. cbn [x0 x1 y0 y1].
    destruct (qltb_spec (long_min (cb_bounds c)) (long_max (cb_bounds c))); destruct (qltb_spec (long_max (cb_bounds c)) (long_min (cb_bounds c))); try lra; split; intros (? & ?); repeat split; lra. }
  destruct (C92_listed m) as (l & S & F & Al).
  assert (N : forall k c, nth_error (get_cellboxes m) k = Some c -> exists i, nth_error l k = Some i /\ live_cell m i c).
  { clear - F. induction F as [|i c l cs L F IH]; intros [|k] c' H; try discriminate; cbn in H |- *; [injection H as <-; eauto|apply IH, H]. }
  assert (M : forall k i, nth_error l k = Some i -> exists c, nth_error (get_cellboxes m) k = Some c /\ live_cell m i c).
  { clear - F. induction F as [|i c l cs L F IH]; intros [|k] c' H; try discriminate; cbn in H |- *; [injection H as <-; eauto|apply IH, H]. }
  assert (U : NoDup l). { clear - S. induction S as [|i l S IH Fa]; constructor; [|exact IH]. intros I. rewrite Forall_forall in Fa. specialize (Fa i I). lia. }
  split.
  - intros c r p I Ip. apply in_map_iff in I as (c0 & E & I). unfold g in E at 1. injection E as -> <-. apply G in Ip as (Id & Im). split; [exact Id|].
    apply In_nth_error in I as (k & I). destruct (N k c I) as (i & _ & L). exact (T2 i c _ _ L Im).
  - intros p Ip Im. destruct (T1 _ _ Im) as (i & c & L & Mc). destruct (In_nth_error _ _ (Al i c L)) as (k & Hk). destruct (M k i Hk) as (c1 & Hc & L1).
    assert (c1 = c) as -> by (unfold live_cell in *; congruence).
    exists k, c, (snd (g c)). split; [rewrite nth_error_map, Hc; reflexivity|]. split; [apply G; tauto|].
    intros k' c' r' H I'. rewrite nth_error_map in H. destruct (nth_error (get_cellboxes m) k') as [c2|] eqn:E; [|discriminate]. cbn in H. unfold g in H at 1. injection H as -> <-.
    apply G in I' as (_ & M'). destruct (N k' c' E) as (i' & Hi & L'). assert (i' = i) as -> by (eapply T3; eassumption).
    apply (proj1 (NoDup_nth_error l) U); [apply nth_error_Some; congruence|congruence].
Qed.
Print Assumptions C92_rows_partial.
Example C92_case : admissible ex_region 1 1 /\ reachable ex_region 1 1 [] ex_m3 /\ (exists x y, mem (region ex_region) x y) /\
  map cb_id (get_cellboxes ex_m3) = [0; 2; 3; 5; 6; 8; 9; 10; 11; 12; 13; 14; 15; 16; 17]%Z /\
  (exists c, get_cellbox ("contains_point" :: cellbox_attributes) ex_m3 (21#2) (1#2) = Ok c /\ cb_id c = 0%Z) /\
  get_cellbox ("contains_point" :: cellbox_attributes) ex_m3 14 (1#2) = Err IndexError /\
  (exists i c, live_cell ex_m3 i c) /\
  (exists l, add_data_points ["long"; "width"; "lat"; "height"; "add_data_points"] ex_m3 [mkP (1#2) 11 None []; mkP 1 14 None []] = Ok l /\
     map (fun e => List.length (snd e)) l = [1; 0; 0; 0; 0; 0; 0; 0; 0; 0; 0; 0; 0; 0; 0]%nat).
Proof.
  split; [exact ex_admissible|]. split; [exact ex_reachable|]. split; [exists (21#2)%Q, (1#2)%Q; vm_compute; repeat split; discriminate|].
  split; [vm_compute; reflexivity|]. split; [eexists; split; vm_compute; reflexivity|]. split; [vm_compute; reflexivity|].
  split; [exists 0%nat; eexists; vm_compute; reflexivity|]. eexists. split; vm_compute; reflexivity.
Qed.

(** On a dyadic grid the whole mesh in double precision is the exact one. *)
From Coq Require Import Floats.SpecFloat Qround Qpower Bool.
From Verif Require Import Base QLib Geo Graph Cell Builder Spec MeshSpec Invariant Grid Floats FloatGeo FloatMesh FloatArith FloatSpec FloatMeshSpec FloatProofs.
Open Scope Z_scope.

(** ** Integers as doubles *)
Lemma int_isf q z : (q == inject_Z z)%Q -> Z.abs z < 2 ^ 53 -> repr q.
Proof. intros E B. apply (repr_eq (inject_Z z * pw 0)); [change (pw 0) with 1%Q; rewrite E; ring|]. apply int_repr; [exact B|lia]. Qed.
Lemma f_int_Z x q z : isf x q -> (q == inject_Z z)%Q -> f_int x = Ok z.
Proof.
  intros X E. destruct (isf_means _ _ X) as (v & V & W). unfold f_int. rewrite V. assert (v == inject_Z z)%Q as F by (rewrite W; exact E). f_equal.
  destruct (qltb v 0).
  - assert (Qfloor (- v) = - z) as ->; [|lia]. rewrite F, <- inject_Z_opp. apply Qfloor_Z.
  - rewrite F. apply Qfloor_Z.
Qed.
(** ** The initial graph *)
Lemma exact_map i gw q cols len : isf gw q -> (q == inject_Z cols)%Q -> 0 < cols -> 0 <= i < len -> cols < 2 ^ 52 -> len < 2 ^ 52 - 2 ->
  f_initialise_map i gw len = Ok (initialise_map i q len).
Proof.
  intros G E C I B L. assert (2 ^ 53 = 2 * 2 ^ 52) as P by reflexivity. set (M := 2 ^ 52) in *. clearbody M.
  assert (isf (fint i) (inject_Z i)) as Fi by (apply isf_int; lia). assert (isf (fint (i + 1)) (inject_Z (i + 1))) as Fi1 by (apply isf_int; lia).
  assert (isf (fint len) (inject_Z len)) as Fl by (apply isf_int; lia). assert (isf (fint 0) (inject_Z 0)) as F0 by (apply isf_int; lia).
  assert (isf (fint 1) (inject_Z 1)) as F1 by (apply isf_int; lia).
  assert (isf (fadd (fint i) gw) (inject_Z i + q)) as A.
  { apply isf_add; [exact Fi|exact G|]. apply (int_isf _ (i + cols)); [rewrite E, inject_Z_plus; reflexivity|lia]. }
  assert (isf (fsub (fint i) gw) (inject_Z i - q)) as S.
  { apply isf_sub; [exact Fi|exact G|]. apply (int_isf _ (i - cols)); [unfold Zminus; rewrite E, inject_Z_plus, inject_Z_opp; reflexivity|lia]. }
  assert (0 < q)%Q as Q0 by (rewrite E; change 0%Q with (inject_Z 0); rewrite <- Zlt_Qlt; exact C).
  assert (forall j, 0 <= j < M -> isf (py_mod (fint j) gw) (qmod (inject_Z j) q)) as Md.
  { intros j J. pose proof (Z.mod_pos_bound j cols C) as R. assert (qmod (inject_Z j) q == inject_Z (j mod cols))%Q as Eq by (rewrite (qmod_comp _ _ _ _ (Qeq_refl _) E); apply qmod_inject, C).
    apply isf_mod; [apply isf_int; lia|exact G|exact Q0| |].
    - apply (int_isf _ (j mod cols)); [exact Eq|lia].
    - apply (int_isf _ (j mod cols - cols)); [unfold Zminus; rewrite Eq, E, inject_Z_plus, inject_Z_opp; reflexivity|lia]. }
  pose proof (Md i ltac:(lia)) as Mi. pose proof (Md (i + 1) ltac:(lia)) as Mi1. clear Md.
  unfold f_initialise_map, initialise_map. cbv zeta.
  rewrite (isf_lt _ _ _ _ A Fl), (isf_le _ _ _ _ F0 S), (isf_eqb _ _ _ _ Mi F0), (isf_eqb _ _ _ _ Mi1 F0).
  change (inject_Z 0) with 0%Q.
  assert (qeqb (qmod (inject_Z (i + 1)) q) 0 = qeqb (qmod (inject_Z i + 1) q) 0) as ->.
  { rewrite inject_Z_plus. reflexivity. }
  assert (forall x y z, isf x y -> (y == inject_Z z)%Q -> f_int x = Ok (Qfloor y)) as FI.
  { intros x y z X Y. rewrite (f_int_Z x y z X Y). f_equal. rewrite Y. symmetry. apply Qfloor_Z. }
  change 1%Q with (inject_Z 1).
  assert (f_int (fadd (fint i) gw) = Ok (Qfloor (inject_Z i + q))) as -> by (apply (FI _ _ (i + cols) A); rewrite E, inject_Z_plus; reflexivity).
  assert (f_int (fsub (fint i) gw) = Ok (Qfloor (inject_Z i - q))) as -> by (apply (FI _ _ (i - cols) S); unfold Zminus; rewrite E, inject_Z_plus, inject_Z_opp; reflexivity).
  assert (f_int (fadd (fadd (fint i) gw) (fint 1)) = Ok (Qfloor (inject_Z i + q + inject_Z 1))) as ->.
  { assert (inject_Z i + q + inject_Z 1 == inject_Z (i + cols + 1))%Q as Z by (rewrite E, !inject_Z_plus; reflexivity).
    apply (FI _ _ (i + cols + 1)); [|exact Z]. apply isf_add; [exact A|exact F1|]. apply (int_isf _ _ Z). lia. }
  assert (f_int (fsub (fadd (fint i) gw) (fint 1)) = Ok (Qfloor (inject_Z i + q - inject_Z 1))) as ->.
  { assert (inject_Z i + q - inject_Z 1 == inject_Z (i + cols - 1))%Q as Z by (unfold Zminus; rewrite E, !inject_Z_plus, inject_Z_opp; reflexivity).
    apply (FI _ _ (i + cols - 1)); [|exact Z]. apply isf_sub; [exact A|exact F1|]. apply (int_isf _ _ Z). lia. }
  assert (f_int (fadd (fsub (fint i) gw) (fint 1)) = Ok (Qfloor (inject_Z i - q + inject_Z 1))) as ->.
  { assert (inject_Z i - q + inject_Z 1 == inject_Z (i - cols + 1))%Q as Z by (unfold Zminus; rewrite E, !inject_Z_plus, inject_Z_opp; reflexivity).
    apply (FI _ _ (i - cols + 1)); [|exact Z]. apply isf_add; [exact S|exact F1|]. apply (int_isf _ _ Z). lia. }
  assert (f_int (fsub (fsub (fint i) gw) (fint 1)) = Ok (Qfloor (inject_Z i - q - inject_Z 1))) as ->.
  { assert (inject_Z i - q - inject_Z 1 == inject_Z (i - cols - 1))%Q as Z by (unfold Zminus; rewrite E, !inject_Z_plus, !inject_Z_opp; reflexivity).
    apply (FI _ _ (i - cols - 1)); [|exact Z]. apply isf_sub; [exact S|exact F1|]. apply (int_isf _ _ Z). lia. }
  set (up := qltb _ _). set (down := qleb _ _). set (he := negb _). set (hw := negb _). clearbody up down he hw.
  destruct up, down, he, hw; reflexivity.
Qed.
Lemma exact_graph gw q cols len : isf gw q -> (q == inject_Z cols)%Q -> (len = 0%nat \/ 0 < cols) -> cols < 2 ^ 52 -> Z.of_nat len < 2 ^ 52 - 2 ->
  f_initialise_graph len gw = Ok (initialise_neighbour_graph len q).
Proof.
  intros G E C B L. unfold f_initialise_graph, initialise_neighbour_graph.
  assert (forall l g, (forall i, In i l -> (i < len)%nat) ->
    foldM (fun g i => m <- f_initialise_map (Z.of_nat i) gw (Z.of_nat len) ;; Ok (add_node g (KI (Z.of_nat i)) m)) g l =
    Ok (fold_left (fun g i => add_node g (KI (Z.of_nat i)) (initialise_map (Z.of_nat i) q (Z.of_nat len))) l g)) as H.
  { induction l as [|i l IH]; intros g I; [reflexivity|]. cbn [foldM fold_left]. pose proof (I i (or_introl eq_refl)).
    rewrite (exact_map (Z.of_nat i) gw q cols (Z.of_nat len) G E) by lia. cbn [bind]. apply IH. intros j J. apply I. right. exact J. }
  apply H. intros i I. apply in_seq in I. lia.
Qed.

(** ** Splitting *)
Definition related (k n : Z) (o : option fcell) (o' : option cellbox) : Prop :=
  match o, o' with
  | Some c, Some c' => exb (k + n) (fc_bounds c) (cb_bounds c') /\ good (cb_bounds c') /\ fc_depth c = cb_depth c' /\ 0 <= fc_depth c <= n /\ exb (k + fc_depth c) (fc_bounds c) (cb_bounds c')
  | None, None => True
  | _, _ => False
  end.
Lemma Forall2_nth {A B} (R : A -> B -> Prop) l m : Forall2 R l m -> forall i, match nth_error l i, nth_error m i with Some a, Some b => R a b | None, None => True | _, _ => False end.
Proof. induction 1 as [|a b l m H _ IH]; intros [|i]; cbn; try exact I; [exact H|apply IH]. Qed.
Lemma Forall2_len {A B} (R : A -> B -> Prop) l m : Forall2 R l m -> List.length l = List.length m.
Proof. induction 1; cbn; congruence. Qed.
Lemma Forall2_set {A B} (R : A -> B -> Prop) l m : Forall2 R l m -> forall i a b, R a b -> Forall2 R (list_set l i a) (list_set m i b).
Proof. induction 1 as [|a b l m H F IH]; intros [|i] x y X; cbn [list_set]; constructor; auto. Qed.
Lemma related_nth k n l m : Forall2 (related k n) l m -> forall z,
  match py_nth l z, py_nth m z with Ok a, Ok b => related k n a b | Err e, Err e' => e = e' | _, _ => False end.
Proof.
  intros F z. unfold py_nth. rewrite (Forall2_len _ _ _ F). destruct (_ <? 0); [reflexivity|].
  set (j := Z.to_nat _). pose proof (Forall2_nth _ _ _ F j) as H. destruct (nth_error l j), (nth_error m j); try contradiction; [exact H|reflexivity].
Qed.
Lemma py_nth_map {A B} (f : A -> B) l z : py_nth (map f l) z = match py_nth l z with Ok a => Ok (f a) | Err e => Err e end.
Proof.
  unfold py_nth. rewrite map_length. destruct (_ <? 0); [reflexivity|]. rewrite nth_error_map. destruct (nth_error l _); reflexivity.
Qed.
Lemma foldM_same {A S} (f g : S -> A -> res S) : (forall s a, f s a = g s a) -> forall l s, foldM f s l = foldM g s l.
Proof. intros E. induction l as [|a l IH]; intros s; [reflexivity|]. cbn [foldM]. rewrite E. destruct (g s a); cbn [bind]; [apply IH|reflexivity]. Qed.

Section Related.
Context (k n : Z) (K : 0 <= k) (N : 0 <= n) (KN : k + n <= 43).
Context (fl : list (option fcell)) (ml : list (option cellbox)) (F : Forall2 (related k n) fl ml).
Lemma exact_at {T} gl (i j : Z) (f : Z -> res T) :
  (a <- f_bounds_at fl i ;; b <- f_bounds_at fl j ;; f (f_case gl a b)) = (a <- bounds_at (cell_bounds_list ml) i ;; b <- bounds_at (cell_bounds_list ml) j ;; f (get_neighbour_case gl a b)).
Proof.
  unfold f_bounds_at, bounds_at, cell_bounds_list. rewrite !py_nth_map.
  pose proof (related_nth k n fl ml F i) as Hi. pose proof (related_nth k n fl ml F j) as Hj.
  destruct (py_nth fl i) as [o|e], (py_nth ml i) as [o'|e']; try contradiction; cbn [bind]; [|rewrite Hi; reflexivity].
  destruct o as [c|], o' as [c'|]; try contradiction; cbn [option_map bind]; [|reflexivity].
  destruct (py_nth fl j) as [p|e], (py_nth ml j) as [p'|e']; try contradiction; cbn [bind]; [|rewrite Hj; reflexivity].
  destruct p as [d|], p' as [d'|]; try contradiction; cbn [option_map bind]; [|reflexivity].
  destruct Hi as (Xi & Gi & _), Hj as (Xj & Gj & _). rewrite (exact_case (k + n) ltac:(lia) _ _ _ _ gl Xi Xj Gi Gj). reflexivity.
Qed.
Lemma exact_fill_one gl self d1 d2 m indx : f_fill_one gl fl self d1 d2 m indx = fill_one gl (cell_bounds_list ml) self d1 d2 m indx.
Proof. apply (exact_at gl self indx (fun case => m <- (if case =? d1 then map_append m d1 indx else Ok m) ;; if case =? d2 then map_append m d2 indx else Ok m)). Qed.
Lemma exact_add gl g indx new : f_add_if_touching gl fl g indx new = add_if_touching gl (cell_bounds_list ml) g indx new.
Proof. apply (exact_at gl indx new (fun case => if negb (case =? 0) then add_neighbour g (KI indx) (KI case) new else Ok g)). Qed.
Lemma exact_update gl g c a b d : f_update_neighbours gl fl g c a b d = update_neighbours gl (cell_bounds_list ml) g c a b d.
Proof.
  unfold f_update_neighbours, update_neighbours. destruct (remove_node_from_neighbours g (KI c) d); [cbn [bind]|reflexivity].
  destruct (get_neighbours _ _ _); [cbn [bind]|reflexivity]. apply foldM_same. intros s x. rewrite exact_add.
  destruct (add_if_touching _ _ s x a); cbn [bind]; [apply exact_add|reflexivity].
Qed.
Lemma exact_fills gl c l l' m :
  f_fill_se gl fl c l l' m = fill_se_map gl (cell_bounds_list ml) c l l' m /\ f_fill_ne gl fl c l l' m = fill_ne_map gl (cell_bounds_list ml) c l l' m /\
  f_fill_nw gl fl c l l' m = fill_nw_map gl (cell_bounds_list ml) c l l' m /\ f_fill_sw gl fl c l l' m = fill_sw_neighbour_map gl (cell_bounds_list ml) c l l' m.
Proof.
  unfold f_fill_se, f_fill_ne, f_fill_nw, f_fill_sw, fill_se_map, fill_ne_map, fill_nw_map, fill_sw_neighbour_map.
  assert (forall d1 d2 x m, foldM (f_fill_one gl fl c d1 d2) m x = foldM (fill_one gl (cell_bounds_list ml) c d1 d2) m x) as H by (intros; apply foldM_same; intros; apply exact_fill_one).
  repeat split; rewrite H; match goal with |- bind ?r _ = _ => destruct r; cbn [bind]; [apply H|reflexivity] end.
Qed.
Lemma exact_split_graph gl g c nw ne sw se : f_split_graph gl fl g c nw ne sw se = split_graph gl (cell_bounds_list ml) g c nw ne sw se.
Proof.
  unfold f_split_graph, split_graph.
  repeat match goal with
  | |- bind ?r _ = bind ?r _ => destruct r; cbn [bind]; [|reflexivity]
  | |- bind (f_fill_sw gl fl ?a ?b ?d ?m) _ = _ => rewrite (proj2 (proj2 (proj2 (exact_fills gl a b d m))))
  | |- bind (f_fill_nw gl fl ?a ?b ?d ?m) _ = _ => rewrite (proj1 (proj2 (proj2 (exact_fills gl a b d m))))
  | |- bind (f_fill_ne gl fl ?a ?b ?d ?m) _ = _ => rewrite (proj1 (proj2 (exact_fills gl a b d m)))
  | |- bind (f_fill_se gl fl ?a ?b ?d ?m) _ = _ => rewrite (proj1 (exact_fills gl a b d m))
  | |- bind (f_update_neighbours gl fl ?g ?a ?b ?d ?m) _ = _ => rewrite (exact_update gl g a b d m)
  end. reflexivity.
Qed.
End Related.

Definition same (k n : Z) (f : fmesh) (m : mesh) : Prop := fng f = ng m /\ fglob f = glob m /\ Forall2 (related k n) (fcells f) (cells m).
Definition agree {A B} (R : A -> B -> Prop) (r : res A) (s : res B) : Prop :=
  match r, s with Ok a, Ok b => R a b | Err e, Err e' => e = e' | _, _ => False end.
Lemma exact_replace k n f m i : 0 <= k -> 0 <= n -> k + n <= 43 -> same k n f m ->
  (forall c, nth_error (fcells f) i = Some (Some c) -> fc_depth c < n) -> agree (same k n) (f_split_and_replace f i) (split_and_replace m i).
Proof.
  intros K N KN (G & Gl & F) D. unfold f_split_and_replace, split_and_replace.
  pose proof (related_nth k n _ _ F (Z.of_nat i)) as H. 
  assert (forall c, py_nth (fcells f) (Z.of_nat i) = Ok (Some c) -> fc_depth c < n) as D'.
  { intros c E. apply D. unfold py_nth in E. assert ((Z.of_nat i <? 0) = false) as Hz by (apply Z.ltb_ge; lia). rewrite Hz in E. rewrite Hz in E. rewrite Nat2Z.id in E. destruct (nth_error _ i); [injection E as ->; reflexivity|discriminate]. }
  destruct (py_nth (fcells f) (Z.of_nat i)) as [o|e], (py_nth (cells m) (Z.of_nat i)) as [o'|e']; try contradiction; cbn [bind]; [|exact H].
  destruct o as [c|], o' as [c'|]; try contradiction; [|reflexivity]. pose proof (D' c eq_refl) as Dc. clear D D'. cbv zeta.
  destruct H as (X & Gd & Ed & Rd & Xd). destruct (exact_split (k + fc_depth c) (fc_bounds c) (cb_bounds c') ltac:(lia) ltac:(lia) Xd Gd) as (l & b & E1 & E2 & FB).
  unfold cell_split. rewrite E1, E2. cbn [bind]. rewrite <- (Forall2_len _ _ _ F), <- G, <- Gl.
  set (kids := map (fun ib : nat * boundary => mkCell _ _ _ _ _) _).
  assert (Forall2 (related k n) (fcells f ++ map (fun x => Some (mkFC x (fc_depth c + 1))) l) (cells m ++ map Some kids)) as F'.
  { apply Forall2_app; [exact F|]. unfold kids. clearbody kids. clear - FB Ed Rd Dc K N. generalize 0%nat at 1. induction FB as [|x y l b [HX HG] _ IH]; intros j; [constructor|].
    cbn [List.length seq combine map]. constructor; [|apply IH]. cbn [related fc_bounds fc_depth cb_bounds cb_depth fst snd].
    split; [apply (exb_mono (k + fc_depth c + 1)); [lia|exact HX]|]. split; [exact HG|]. split; [lia|]. split; [lia|]. rewrite Z.add_assoc. exact HX. }
  rewrite (exact_split_graph k n K N KN _ _ F'). destruct (split_graph _ _ _ _ _ _ _ _) as [g|e]; cbn [bind agree]; [|reflexivity].
  split; [reflexivity|]. split; [reflexivity|]. cbn [fcells cells]. apply Forall2_set; [exact F'|exact I].
Qed.

(** ** Building *)
Lemma count_small k q c n : 0 <= k <= 43 -> multiple k c -> (0 < c)%Q -> (q == inject_Z n * c)%Q -> (q < 1024)%Q -> 0 <= n -> n < 2 ^ 53.
Proof.
  intros K (z & Z) P E R N. change (Qpower 2 (- k)) with (pw (- k)) in Z. pose proof (pw_pos (- k)) as Pk. pose proof (pw_neg k (proj1 K)) as Pn.
  assert (1 <= z) as Z1. { assert (0 < z); [|lia]. rewrite Zlt_Qlt. change (inject_Z 0) with 0%Q. apply Qnot_le_lt. intros L. assert (inject_Z z * pw (- k) <= 0)%Q by nra. lra. }
  assert (pw (- k) <= c)%Q as C. { rewrite Z. assert (1 <= inject_Z z)%Q by (change 1%Q with (inject_Z 1); rewrite <- Zle_Qle; exact Z1). nra. }
  assert (0 <= inject_Z n)%Q as N0 by (change 0%Q with (inject_Z 0); rewrite <- Zle_Qle; exact N).
  assert (inject_Z n * pw (- k) < 1024)%Q as B. { assert (inject_Z n * pw (- k) <= inject_Z n * c)%Q by nra. lra. }
  assert (0 < inject_Z (2 ^ k))%Q as T by (change 0%Q with (inject_Z 0); rewrite <- Zlt_Qlt; apply Z.pow_pos_nonneg; lia).
  assert (inject_Z n < 1024 * inject_Z (2 ^ k))%Q as U. { apply (Qmult_lt_compat_r _ _ _ T) in B. assert (inject_Z n * pw (- k) * inject_Z (2 ^ k) == inject_Z n)%Q by (transitivity (inject_Z n * (pw (- k) * inject_Z (2 ^ k)))%Q; [ring|rewrite Pn; ring]). lra. }
  change 1024%Q with (inject_Z 1024) in U. rewrite <- inject_Z_mult, <- Zlt_Qlt in U. assert (2 ^ k <= 2 ^ 43) by (apply Z.pow_le_mono_r; lia). change (2 ^ 53) with (1024 * 2 ^ 43). lia.
Qed.
Lemma exact_global k x b ids gw g : 0 <= k <= 43 -> exb k x b -> f_check_global x ids gw g = check_global_mesh b ids gw g.
Proof.
  intros K (_ & _ & X3 & X4). unfold f_check_global, check_global_mesh. pose proof (ex_abs k _ _ X3) as A.
  rewrite (ex_eqb k _ _ _ _ X4 A), (ex_eqb k _ _ _ _ A (ex_int k K 180 ltac:(lia))). change (inject_Z 180) with 180%Q. reflexivity.
Qed.
Lemma mapM_len {A B} (f : A -> res B) : forall l m, mapM f l = Ok m -> List.length m = List.length l.
Proof.
  induction l as [|a l IH]; intros m E; cbn [mapM] in E; [injection E as <-; reflexivity|].
  destruct (f a); [|discriminate]. cbn [bind] in E. destruct (mapM f l) eqn:F; [|discriminate]. injection E as <-. cbn. f_equal. apply IH. reflexivity.
Qed.
Lemma arange_len a b c n : (0 < c)%Q -> (b - a == inject_Z n * c)%Q -> List.length (arange a b c) = Z.to_nat n.
Proof. intros P E. rewrite (arange_exact a b c n P E). rewrite map_length, seq_length. reflexivity. Qed.
Lemma grid_len b w h rows cols m : (0 < w)%Q -> (0 < h)%Q -> (get_height b == inject_Z rows * h)%Q -> (get_width b == inject_Z cols * w)%Q ->
  initialize_bounds b w h = Ok m -> List.length m = (Z.to_nat rows * Z.to_nat cols)%nat.
Proof.
  intros W H Er Ec E. rewrite (mapM_len _ _ _ E), prod_length, (arange_len _ _ _ rows H Er). f_equal.
  unfold long_columns. rewrite map_length. unfold get_width in Ec. destruct (qltb (long_min b) (long_max b)); apply arange_len; try exact W; [exact Ec|].
  rewrite <- Ec. ring.
Qed.
Lemma exact_build k depth x b cw ch w h rows cols srcs : 0 <= k -> 0 <= depth -> k + depth <= 43 -> exb k x b -> good b -> ex k cw w -> ex k ch h ->
  (0 < w <= 360)%Q -> (0 < h <= 180)%Q -> 0 <= rows -> 0 <= cols ->
  (get_height b == inject_Z rows * h)%Q -> (get_width b == inject_Z cols * w)%Q -> rows * cols < 2 ^ 52 - 2 ->
  agree (same k depth) (f_build x cw ch) (build_mesh b w h srcs).
Proof.
  intros K0 D0 KD X G W H Pw Ph Rr Rc Er Ec S. assert (0 <= k <= 43) as K by lia. unfold f_build, build_mesh.
  rewrite (exact_validate k K x b cw ch w h X G W H) by lra. destruct (validate_bounds b w h) as [[]|e]; [cbn [bind]|reflexivity].
  destruct (exact_grid k K x b cw ch w h rows cols X G W H) as (l & m & E1 & E2 & F); try assumption; try lra.
  unfold initialize_cellboxes. rewrite E1, E2. cbn [bind]. pose proof (Forall2_len _ _ _ F) as Len.
  assert (List.length m = (Z.to_nat rows * Z.to_nat cols)%nat) as Lm by (apply (grid_len b w h); try assumption; lra).
  assert (isf (fdiv (f_width x) cw) (get_width b / w)) as GW.
  { pose proof (width_range b G) as RW. apply isf_div; [apply (ex_width k K x b X G)|apply W|lra|]. apply (int_isf _ cols); [rewrite Ec; field; lra|].
    assert (cols < 2 ^ 53); [|lia]. apply (count_small k (get_width b) w); [exact K|apply W|lra|exact Ec|lra|exact Rc]. }
  assert (get_width b / w == inject_Z cols)%Q as GE by (rewrite Ec; field; lra).
  rewrite map_length, combine_length, seq_length, Nat.min_id, Len.
  assert (f_initialise_graph (List.length m) (fdiv (f_width x) cw) = Ok (initialise_neighbour_graph (List.length m) (get_width b / w))) as ->.
  { destruct (Nat.eq_dec (List.length m) 0) as [->|NZ]; [reflexivity|]. apply (exact_graph _ _ cols); [exact GW|exact GE| | |].
    - right. destruct (Z.eq_dec cols 0) as [->|]; [|lia]. exfalso. apply NZ. rewrite Lm. cbn. lia.
    - assert (0 < rows) by (destruct (Z.eq_dec rows 0) as [->|]; [exfalso; apply NZ; rewrite Lm; reflexivity|lia]). nia.
    - rewrite Lm, Nat2Z.inj_mul, !Z2Nat.id by assumption. exact S. }
  cbn [bind]. rewrite (f_int_Z _ _ cols GW GE). cbn [bind].
  assert (Qfloor (get_width b / w) = cols) as -> by (rewrite GE; apply Qfloor_Z).
  set (cs := map (fun ib : nat * boundary => mkCell _ _ _ _ _) _).
  assert (map cb_id cs = map Z.of_nat (seq 0 (List.length m))) as ->.
  { unfold cs. rewrite map_map. cbn [cb_id]. clear. generalize 0%nat. induction m as [|c m IH]; intros j; [reflexivity|]. cbn [List.length seq combine map fst]. f_equal. apply IH. }
  rewrite (exact_global k x b _ _ _ K X). destruct (check_global_mesh _ _ _ _) as [[g fl]|e]; cbn [bind agree fst snd]; [|reflexivity].
  split; [reflexivity|]. split; [reflexivity|]. cbn [fcells cells]. unfold cs. clearbody cs. clear - F K0 D0 KD. generalize 0%nat.
  induction F as [|f c l m [HX HG] _ IH]; intros j; [constructor|]. cbn [List.length seq combine map]. constructor; [|apply IH].
  cbn [related fc_bounds fc_depth cb_bounds cb_depth fst snd]. split; [apply (exb_mono k); [lia|exact HX]|]. split; [exact HG|]. split; [reflexivity|]. split; [lia|].
  rewrite Z.add_0_r. exact HX.
Qed.

(** ** Histories *)
Lemma exact_splits k n f f' : 0 <= k -> 0 <= n -> k + n <= 43 -> f_splits n f f' -> forall m, same k n f m -> exists m', splits_by (fun c => cb_depth c < n) m m' /\ same k n f' m'.
Proof.
  intros K N KN S. induction S as [f|f f1 f2 i c S IH I D E]; intros m R; [exists m; split; [constructor|exact R]|].
  destruct (IH m R) as (m1 & S1 & R1). pose proof (exact_replace k n f1 m1 i K N KN R1) as A.
  assert (forall c0, nth_error (fcells f1) i = Some (Some c0) -> fc_depth c0 < n) as D' by (intros c0 I0; rewrite I in I0; injection I0 as <-; exact D).
  specialize (A D'). rewrite E in A. destruct (split_and_replace m1 i) as [m2|] eqn:E2; [|contradiction]. exists m2. split; [|exact A].
  destruct R1 as (_ & _ & F). pose proof (Forall2_nth _ _ _ F i) as H. rewrite I in H. destruct (nth_error (cells m1) i) as [[c'|]|] eqn:I'; try contradiction.
  apply (by_more _ m m1 m2 i c' S1 I'); [|exact E2]. destruct H as (_ & _ & <- & _). exact D.
Qed.
Lemma exact_splits_back k n m m' : 0 <= k -> 0 <= n -> k + n <= 43 -> splits_by (fun c => cb_depth c < n) m m' -> forall f, same k n f m -> exists f', f_splits n f f' /\ same k n f' m'.
Proof.
  intros K N KN S. induction S as [m|m m1 m2 i c S IH I D E]; intros f R; [exists f; split; [constructor|exact R]|].
  destruct (IH f R) as (f1 & S1 & R1). destruct R1 as (G1 & Gl1 & F1). pose proof (Forall2_nth _ _ _ F1 i) as H. unfold live_cell in I. rewrite I in H.
  destruct (nth_error (fcells f1) i) as [[c'|]|] eqn:I'; try contradiction. destruct H as (_ & _ & Ed & _).
  pose proof (exact_replace k n f1 m1 i K N KN (conj G1 (conj Gl1 F1))) as A. rewrite E in A.
  assert (forall c0, nth_error (fcells f1) i = Some (Some c0) -> fc_depth c0 < n) as D' by (intros c0 I0; rewrite I' in I0; injection I0 as <-; lia).
  specialize (A D'). destruct (f_split_and_replace f1 i) as [f2|] eqn:E2; [|contradiction]. exists f2. split; [|exact A].
  apply (fs_more n f f1 f2 i c' S1 I'); [lia|exact E2].
Qed.
Lemma splits_by_splits P m m' : splits_by P m m' -> splits m m'.
Proof. induction 1; [constructor|econstructor; eassumption]. Qed.
Lemma same_same_mesh k n f m : same k n f m -> same_mesh f m.
Proof.
  intros (G & Gl & F). split; [exact G|]. split; [exact Gl|]. induction F as [|o o' l l' H _ IH]; constructor; [|exact IH].
  destruct o as [c|], o' as [c'|]; try contradiction; [|exact I]. destruct H as (X & _ & D & _). split; [exact (exb_denotes _ _ _ X)|exact D].
Qed.

(** ** The graph *)
Definition respectful (R : compass -> box -> box -> Prop) : Prop := forall d a b a' b',
  (x0 a == x0 a' /\ x1 a == x1 a' /\ y0 a == y0 a' /\ y1 a == y1 a')%Q -> (x0 b == x0 b' /\ x1 b == x1 b' /\ y0 b == y0 b' /\ y1 b == y1 b')%Q -> R d a b -> R d a' b'.
Lemma touches_respectful : respectful touches.
Proof.
  intros d a b a' b' (A1 & A2 & A3 & A4) (B1 & B2 & B3 & B4). destruct d; cbn [touches]; unfold y_overlap, x_overlap; intros [H1 H2]; (split; [lra|]);
    first [lra|destruct H2 as (z & Z); exists z; lra].
Qed.
Lemma touches_mod_respectful : respectful touches_mod.
Proof.
  intros d a b a' b' A (B1 & B2 & B3 & B4) (z & T). exists z. revert T. apply touches_respectful; [exact A|]. cbn [shift x0 x1 y0 y1]. repeat split; lra.
Qed.
Lemma denotes_region c e e' : denotes c e -> denotes c e' ->
  (x0 (region e) == x0 (region e') /\ x1 (region e) == x1 (region e') /\ y0 (region e) == y0 (region e') /\ y1 (region e) == y1 (region e'))%Q.
Proof.
  intros ([_ A] & [_ B] & [_ C] & [_ D]) ([_ A'] & [_ B'] & [_ C'] & [_ D']).
  pose proof (means_unique _ _ _ A A'). pose proof (means_unique _ _ _ B B'). pose proof (means_unique _ _ _ C C'). pose proof (means_unique _ _ _ D D').
  unfold region. cbn [x0 x1 y0 y1]. repeat split; try assumption. qsplit; lra.
Qed.
Lemma same_live f m : same_mesh f m -> forall i,
  (forall c, f_live f i c -> exists c', live_cell m i c' /\ denotes c (cb_bounds c')) /\
  (forall c', live_cell m i c' -> exists c, f_live f i c /\ denotes c (cb_bounds c')).
Proof.
  intros (_ & _ & F) i. pose proof (Forall2_nth _ _ _ F i) as H. cbn beta in H. unfold f_live, live_cell. split.
  - intros c (d & E). rewrite E in H. destruct (nth_error (cells m) i) as [[c'|]|]; try contradiction. exists c'. split; [reflexivity|apply H].
  - intros c' E. rewrite E in H. destruct (nth_error (fcells f) i) as [[[c d]|]|]; try contradiction. exists c. split; [exists d; reflexivity|apply H].
Qed.
Lemma same_graph R f m : respectful R -> same_mesh f m -> graph_exact R m -> f_graph_exact R f.
Proof.
  intros Resp S (ND & Keys & Lists). pose proof (same_live f m S) as L. destruct S as (G & _ & _). unfold f_graph_exact. rewrite G. split; [exact ND|]. split.
  - intros k. rewrite Keys. split; intros (i & c & E & I).
    + destruct (L i) as [_ B]. destruct (B c I) as (c' & I' & _). exists i, c'. split; assumption.
    + destruct (L i) as [B _]. destruct (B c I) as (c' & I' & _). exists i, c'. split; assumption.
  - intros i c e d I D. destruct (L i) as [B _]. destruct (B c I) as (c' & I' & D'). destruct (Lists i c' d I') as (l & E & NDl & Spec). exists l. split; [exact E|]. split; [exact NDl|].
    pose proof (denotes_region _ _ _ D D') as Q. assert (forall a b, (x0 a == x0 b /\ x1 a == x1 b /\ y0 a == y0 b /\ y1 a == y1 b)%Q -> (x0 b == x0 a /\ x1 b == x1 a /\ y0 b == y0 a /\ y1 b == y1 a)%Q) as Sym by (intros a b (A1 & A2 & A3 & A4); repeat split; lra).
    intros z. rewrite Spec. split.
    + intros (j & y & -> & J & T). destruct (L j) as [_ C]. destruct (C y J) as (y' & J' & Dy). exists j, y', (cb_bounds y). split; [reflexivity|]. split; [exact J'|]. split; [exact Dy|].
      revert T. apply Resp; [apply Sym, Q|repeat split; reflexivity].
    + intros (j & y & ey & -> & J & Dy & T). destruct (L j) as [C _]. destruct (C y J) as (y' & J' & Dy'). exists j, y'. split; [reflexivity|]. split; [exact J'|].
      revert T. apply Resp; [exact Q|exact (denotes_region _ _ _ Dy Dy')].
Qed.

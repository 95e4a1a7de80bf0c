(** Property theorem C83: plotting a mesh. *)
From Coq Require Import String.
From Verif Require Import Base Geo Cell Env QLib Export ExportSpec ExportProofs Plot PlotSpec PlotProofs.
Open Scope Z_scope.

Lemma forall2_concat {A B} (h : A -> B -> Prop) l ys : Forall2 (fun a y => exists b, y = [b] /\ h a b) l ys -> Forall2 h l (List.concat ys).
Proof. induction 1 as [|a y l ys (b & -> & H) F IH]; cbn; constructor; assumption. Qed.
Lemma forall2_impl_in {A B} (P Q : A -> B -> Prop) l m : Forall2 P l m -> (forall a b, In a l -> P a b -> Q a b) -> Forall2 Q l m.
Proof. induction 1 as [|a b l m H F IH]; intros I; constructor; [apply I; [left; reflexivity|exact H]|]. apply IH. intros x y J. apply I. right; exact J. Qed.

(** A layer of [plot_cmap]: every cell, in order, in the colour for the part of the range
    its number lies in; transparent if the number is NaN. *)
Definition mapped_layer (cmap : string) (m : Z) (n : string) (lo hi : Q) (c : xcell) (a : polygon * paint) : Prop :=
  fst a = to_polygon (x_bounds c) /\
  ((exists q k, holds c n q /\ in_part m lo hi q k /\ snd a = Mapped cmap (Entry k)) \/ (unknown c n /\ snd a = Mapped cmap Bad)).

(** C83.  A colour map over numbers, at least two of them different. *)
Theorem C83_map : forall colormaps cs n cmap m lo hi p,
  (forall c, In c cs -> plain c) -> ~ In n own_names -> colormaps cmap = Some m -> 0 < m ->
  (forall c, In c cs -> (exists q, holds c n q) \/ unknown c n) -> least cs n lo -> greatest cs n hi -> (lo < hi)%Q ->
  exists layer, plot_cmap colormaps (map x_row cs) n cmap p = Ok (p ++ layer)%list /\ Forall2 (mapped_layer cmap m n lo hi) cs layer.
Proof.
  intros colormaps cs n cmap m lo hi p Pl Nn C M H ((cl & Il & Hl) & Ll) ((ch & Ih & Hh) & Lh) L.
  assert (Ne : cs <> []) by (intros ->; destruct Il).
  destruct (map_loop colormaps cs n cmap m Pl Nn Ne) as (ys & F & E); [intros c I; destruct (H c I) as [(q & X)|X]; eauto|exact C|].
  exists (List.concat ys). split; [apply E|]. apply forall2_concat. eapply forall2_impl_in; [exact F|]. cbv beta. intros c y I (x & Ex & ->).
  eexists. split; [reflexivity|]. split; [reflexivity|]. cbn [snd].
  assert (K : forall x, In x (nums cs n) -> known x).
  { intros z Iz. apply in_map_iff in Iz. destruct Iz as (d & <- & Id). destruct (H d Id) as [(q & X)|X]; rewrite X; [right; eauto|left; reflexivity]. }
  assert (V : forall q, In (Fin q) (nums cs n) -> exists d, In d cs /\ holds d n q).
  { intros q Iz. apply in_map_iff in Iz. destruct Iz as (d & Ez & Id). exists d. split; [exact Id|]. unfold holds. destruct (H d Id) as [(r & X)|X]; rewrite X in Ez |- *; congruence. }
  assert (W : forall d q, In d cs -> holds d n q -> In (Fin q) (nums cs n)).
  { intros d q Id Hd. apply in_map_iff. exists d. rewrite Hd. auto. }
  destruct (min_is (nums cs n) lo K (W _ _ Il Hl)) as (lo' & E1 & Q1); [intros q J; destruct (V q J) as (d & Id & Hd); eapply Ll; eassumption|].
  destruct (max_is (nums cs n) hi K (W _ _ Ih Hh)) as (hi' & E2 & Q2); [intros q J; destruct (V q J) as (d & Id & Hd); eapply Lh; eassumption|].
  rewrite E1, E2. destruct (H c I) as [(q & X)|X].
  - left. unfold holds in X. rewrite X in Ex. injection Ex as <-. destruct (part_of m lo hi q lo' hi' M L) as (k & E3 & Pk); [split; [eapply Ll|eapply Lh]; eassumption|assumption|assumption|].
    exists q, k. split; [exact X|]. split; [exact Pk|]. rewrite E3. reflexivity.
  - right. split; [exact X|]. rewrite X in Ex. injection Ex as <-. reflexivity.
Qed.
Print Assumptions C83_map.

(** Parts: the least number lies in the first, the greatest in the last, greater numbers in
    no earlier parts, and each number in one part. *)
Theorem C83_parts : forall m lo hi, 0 < m -> (lo < hi)%Q ->
  in_part m lo hi lo 0 /\ in_part m lo hi hi (m - 1) /\
  (forall v k w l, in_part m lo hi v k -> in_part m lo hi w l -> (v <= w <= hi)%Q -> k <= l).
Proof.
  intros m lo hi M L. assert (Mq : (0 < inject_Z m)%Q) by (change 0%Q with (inject_Z 0); rewrite <- Zlt_Qlt; exact M).
  assert (Em : (inject_Z (m - 1) == inject_Z m - 1)%Q) by (unfold Z.sub; rewrite inject_Z_plus; reflexivity). unfold in_part. split; [|split].
  - split; [lia|]. change (inject_Z 0) with 0%Q. split; [lra|left; nra].
  - split; [lia|]. rewrite Em. split; [nra|right; split; [lra|reflexivity]].
  - intros v k w l (K & K1 & K2) (B & B1 & [B2|(B2 & ->)]) (V1 & V2); [|lia].
    assert (k < l + 1); [|lia]. rewrite Zlt_Qlt, inject_Z_plus. change (inject_Z 1) with 1%Q. nra.
Qed.
Print Assumptions C83_parts.

(** C83.  If all cells hold the same number, everything is transparent: nothing shows. *)
Theorem C83_constant_refuted : forall colormaps cs n cmap m q p,
  (forall c, In c cs -> plain c) -> ~ In n own_names -> colormaps cmap = Some m -> cs <> [] ->
  (forall c, In c cs -> exists q', holds c n q' /\ (q' == q)%Q) ->
  plot_cmap colormaps (map x_row cs) n cmap p = Ok (p ++ map (fun c => (to_polygon (x_bounds c), Mapped cmap Bad)) cs)%list.
Proof.
  intros colormaps cs n cmap m q p Pl Nn C Ne H.
  destruct (map_loop colormaps cs n cmap m Pl Nn Ne) as (ys & F & E); [intros c I; destruct (H c I) as (q' & X & _); eauto|exact C|]. rewrite E. do 2 f_equal.
  assert (K : forall x, In x (nums cs n) -> exists q', x = Fin q' /\ (q' == q)%Q).
  { intros z Iz. apply in_map_iff in Iz. destruct Iz as (d & <- & Id). destruct (H d Id) as (q' & X & Y). rewrite X. eauto. }
  assert (K' : forall x, In x (nums cs n) -> known x) by (intros x I; destruct (K x I) as (q' & -> & _); right; eauto).
  assert (S : exists q0, In (Fin q0) (nums cs n) /\ (q0 == q)%Q).
  { destruct cs as [|c l]; [contradiction|]. destruct (H c (or_introl eq_refl)) as (q' & X & Y). exists q'. split; [|exact Y]. apply in_map_iff. exists c. rewrite X. cbn. auto. }
  destruct S as (q0 & S & Eq0).
  destruct (min_is (nums cs n) q0 K' S) as (lo & E1 & Q1); [intros r J; destruct (K _ J) as (q' & [= <-] & Y); lra|].
  destruct (max_is (nums cs n) q0 K' S) as (hi & E2 & Q2); [intros r J; destruct (K _ J) as (q' & [= <-] & Y); lra|]. rewrite E1, E2 in F.
  clear - F H Q1 Q2 Eq0. induction F as [|c y l ys (x & Ex & ->) F IH]; [reflexivity|]. cbn. rewrite IH; [|intros d I; apply H; right; exact I].
  destruct (H c (or_introl eq_refl)) as (q' & X & Y). unfold holds in X. rewrite X in Ex. injection Ex as <-. cbn [fsub fopp fadd fdiv].
  destruct (qeqb_spec (hi + - lo) 0) as [D|D]; [|exfalso; lra]. destruct (qeqb_spec (q' + - lo) 0) as [D'|D']; [|exfalso; lra]. reflexivity.
Qed.
Print Assumptions C83_constant_refuted.

(** C83.  One infinite number: all finite ones look alike. *)
Lemma pinf_max : forall l, In PInf l -> smax l = PInf.
Proof.
  unfold smax. assert (S : forall l, fold_left fmax2 l PInf = PInf) by (induction l as [|x l IH]; [reflexivity|]; cbn; destruct x; exact IH).
  intros l. generalize NaN. induction l as [|x l IH]; intros a I; [destruct I|]. cbn. destruct I as [-> | I]; [|apply IH, I]. destruct a; cbn; apply S.
Qed.
Lemma min_fin : forall l, In PInf l -> (exists q, In (Fin q) l) -> ~ In NInf l -> exists m, smin l = Fin m.
Proof.
  unfold smin. intros l _.
  assert (G : forall l a, a <> NInf -> ~ In NInf l -> (exists q, a = Fin q) \/ (exists q, In (Fin q) l) -> exists m, fold_left fmin2 l a = Fin m).
  { clear l. induction l as [|x l IH]; intros a Na Nl H; cbn; [destruct H as [(q & ->)|(q & [])]; eauto|].
    assert (x <> NInf) by (intros ->; apply Nl; left; reflexivity). assert (~ In NInf l) by (intros J; apply Nl; right; exact J).
    apply IH; [destruct a, x; try contradiction; cbn; try discriminate; destruct (qltb _ _); discriminate|assumption|].
    destruct H as [(q & ->)|(q & [-> | J])]; [left|left|right; eauto].
    - destruct x; try contradiction; cbn; eauto. destruct (qltb _ _); eauto.
    - destruct a; try contradiction; cbn; eauto. destruct (qltb _ _); eauto. }
  intros H N. apply G; [discriminate|exact N|right; exact H].
Qed.
Theorem C83_infinite_refuted : forall colormaps cs n cmap m p, (forall c, In c cs -> plain c) -> ~ In n own_names -> colormaps cmap = Some m ->
  (forall c, In c cs -> (exists q, holds c n q) \/ sget (x_data c) n = Some (XNum PInf)) ->
  (exists c q, In c cs /\ holds c n q) -> (exists c, In c cs /\ sget (x_data c) n = Some (XNum PInf)) ->
  exists layer, plot_cmap colormaps (map x_row cs) n cmap p = Ok (p ++ layer)%list /\
    Forall2 (fun c a => fst a = to_polygon (x_bounds c) /\ ((exists q, holds c n q) -> snd a = Mapped cmap (Entry 0))) cs layer.
Proof.
  intros colormaps cs n cmap m p Pl Nn C H (cf & q & If & Hf) (ci & Ii & Hi). assert (Ne : cs <> []) by (intros ->; destruct If).
  destruct (map_loop colormaps cs n cmap m Pl Nn Ne) as (ys & F & E); [intros c I; destruct (H c I) as [(r & X)|X]; eauto|exact C|].
  exists (List.concat ys). split; [apply E|]. apply forall2_concat. eapply forall2_impl_in; [exact F|]. cbv beta. intros c y I (x & Ex & ->).
  eexists. split; [reflexivity|]. split; [reflexivity|]. cbn [snd]. intros (r & X). unfold holds in X. rewrite X in Ex. injection Ex as <-.
  assert (Mx : In PInf (nums cs n)) by (apply in_map_iff; exists ci; rewrite Hi; auto).
  rewrite (pinf_max _ Mx). destruct (min_fin (nums cs n) Mx) as (lo & ->).
  - exists q. apply in_map_iff. exists cf. rewrite Hf. auto.
  - intros J. apply in_map_iff in J. destruct J as (d & Ed & Id). destruct (H d Id) as [(s & Y)|Y]; rewrite Y in Ed; discriminate.
  - cbn [fsub fopp fadd fdiv cmap_at]. destruct (qltb_spec 0 0); [exfalso; lra|]. destruct (qltb_spec 1 0); [exfalso; lra|]. destruct (qeqb_spec 0 1); [exfalso; lra|].
    do 2 f_equal. 
Qed.
Print Assumptions C83_infinite_refuted.

(** C83.  What cannot be plotted: a name some cell does not have, texts, lists, and flags
    (as a colour map). *)
Theorem C83_missing : forall colormaps cs n cmap m p, (forall c, In c cs -> plain c) -> ~ In n own_names -> colormaps cmap = Some m ->
  (forall c, In c cs -> sget (x_data c) n = None \/ exists x, sget (x_data c) n = Some (XNum x)) -> (exists c, In c cs /\ sget (x_data c) n = None) ->
  plot_cmap colormaps (map x_row cs) n cmap p = Err KeyError /\ forall colour, plot_bool (map x_row cs) n colour p = Err KeyError.
Proof.
  intros colormaps cs n cmap m p Pl Nn C H (c & I & N). assert (Ne : cs <> []) by (intros ->; destruct I). split.
  - unfold plot_cmap. destruct (existsb _ _) eqn:K; [|reflexivity]. cbn [negb]. destruct (numbers_column cs n Pl Nn Ne H) as (E & D). rewrite E, D, C, foldM_map_.
    apply foldM_err.
    + exists c. split; [exact I|]. intros s. rewrite (entry_ok cs n Pl Nn c I), N. reflexivity.
    + intros s a e' Ia. rewrite (entry_ok cs n Pl Nn a Ia). destruct (H a Ia) as [-> | (x & ->)]; cbn [bind as_number]; [congruence|].
      rewrite (geometry_ok cs Pl a Ia). discriminate.
  - intros colour. unfold plot_bool. rewrite foldM_map_. apply foldM_err.
    + exists c. split; [exact I|]. intros s. rewrite (geometry_ok cs Pl c I), (entry_ok cs n Pl Nn c I), N. reflexivity.
    + intros s a e' Ia. rewrite (geometry_ok cs Pl a Ia), (entry_ok cs n Pl Nn a Ia). cbn [bind]. destruct (sget (x_data a) n); cbn; congruence.
Qed.
Print Assumptions C83_missing.
Theorem C83_not_numbers : forall colormaps cs n cmap p, (forall c, In c cs -> plain c) -> ~ In n own_names ->
  (exists c v, In c cs /\ sget (x_data c) n = Some v /\ match v with XText _ | XList _ => True | _ => False end) \/
  (cs <> [] /\ forall c, In c cs -> exists b, sget (x_data c) n = Some (XBool b)) ->
  plot_cmap colormaps (map x_row cs) n cmap p = Err TypeError.
Proof.
  intros colormaps cs n cmap p Pl Nn H. unfold plot_cmap.
  assert (K : existsb (String.eqb n) (columns (map x_row cs)) = true).
  { apply (known_name cs n Pl Nn). destruct H as [(c & v & I & E & _)|(Ne & H)]; [exists c; rewrite E; split; [exact I|discriminate]|].
    destruct cs as [|c l]; [contradiction|]. destruct (H c (or_introl eq_refl)) as (b & E). exists c. rewrite E. split; [left; reflexivity|discriminate]. }
  rewrite K, (cell_column cs n Pl Nn). cbn [negb]. destruct H as [(c & v & I & E & T)|(Ne & H)].
  - rewrite all_some_none; [reflexivity|]. apply in_map_iff. exists (Some v). split; [destruct v; try contradiction; reflexivity|]. apply in_map_iff. eauto.
  - destruct (all_some _); [|reflexivity]. unfold dtype_of.
    assert (B : forallb is_bool (map (fun c => sget (x_data c) n) cs) = true).
    { apply forallb_forall. intros v I. apply in_map_iff in I. destruct I as (c & <- & I). destruct (H c I) as (b & ->). reflexivity. }
    rewrite B. reflexivity.
Qed.
Print Assumptions C83_not_numbers.

(** C83.  Flags: exactly the cells with the flag set are painted, in order; a number 1
    counts as a flag that is set. *)
Theorem C83_flags : forall cs n colour p, (forall c, In c cs -> plain c) -> ~ In n own_names ->
  (forall c, In c cs -> sget (x_data c) n <> None) ->
  exists sel, plot_bool (map x_row cs) n colour p = Ok (p ++ map (fun c => (to_polygon (x_bounds c), Plain colour)) sel)%list /\
    selection (counts_as_set n) cs sel.
Proof.
  intros cs n colour p Pl Nn H. destruct (bool_loop cs n Pl Nn colour H) as (ys & F & E). rewrite E. clear E H Pl.
  enough (X : exists sel, List.concat ys = map (fun c => (to_polygon (x_bounds c), Plain colour)) sel /\ selection (counts_as_set n) cs sel).
  { destruct X as (sel & -> & S). eauto. }
  induction F as [|c y l ys (v & Ev & ->) F IH]; [exists []; split; [reflexivity|constructor]|]. destruct IH as (sel & E & S).
  destruct (is_true v) eqn:T.
  - exists (c :: sel). cbn. rewrite E. split; [reflexivity|]. apply sel_take; [|exact S]. unfold counts_as_set, holds. rewrite Ev. destruct v as [[q| | |]|b| | | |]; try discriminate; cbn in T.
    + right. exists q. split; [reflexivity|]. destruct (qeqb_spec q 1); [assumption|discriminate].
    + left. rewrite T. reflexivity.
  - exists sel. cbn. split; [exact E|]. apply sel_skip; [|exact S]. unfold counts_as_set, holds. rewrite Ev. intros [[= ->]|(q & [= ->] & Q)]; cbn in T; [discriminate|].
    destruct (qeqb_spec q 1); [discriminate|contradiction].
Qed.
Print Assumptions C83_flags.

(** C83.  The image: the layers of the colour maps, in their order, and over them those of
    the flags. *)
Definition map_item (colormaps : string -> option Z) (cs : list xcell) (i : string * string) (layer : painting) : Prop :=
  exists m lo hi, colormaps (snd i) = Some m /\ least cs (fst i) lo /\ greatest cs (fst i) hi /\ Forall2 (mapped_layer (snd i) m (fst i) lo hi) cs layer.
Definition bool_item (cs : list xcell) (i : string * string) (layer : painting) : Prop :=
  exists sel, selection (counts_as_set (fst i)) cs sel /\ layer = map (fun c => (to_polygon (x_bounds c), Plain (snd i))) sel.
Theorem C83_image_partial : forall colormaps region cs cmaps bools,
  (lat_min region < lat_max region)%Q -> (long_min region <= long_max region)%Q -> (forall c, In c cs -> plain c) ->
  (forall i, In i cmaps -> ~ In (fst i) own_names /\ (exists m, colormaps (snd i) = Some m /\ 0 < m) /\
     (forall c, In c cs -> (exists q, holds c (fst i) q) \/ unknown c (fst i)) /\
     exists lo hi, least cs (fst i) lo /\ greatest cs (fst i) hi /\ (lo < hi)%Q) ->
  (forall i, In i bools -> ~ In (fst i) own_names /\ forall c, In c cs -> sget (x_data c) (fst i) <> None) ->
  exists maps flags, to_png colormaps region cs (Some cmaps) (Some bools) = Ok (List.concat maps ++ List.concat flags)%list /\
    Forall2 (map_item colormaps cs) cmaps maps /\ Forall2 (bool_item cs) bools flags.
Proof.
  intros colormaps region cs cmaps bools La Lo Pl Hm Hb.
  destruct (foldM_push (fun p i => plot_cmap colormaps (map x_row cs) (fst i) (snd i) p) (map_item colormaps cs) cmaps) as (maps & F1 & E1).
  { intros i I. destruct (Hm i I) as (Nn & (m & C & M) & H & lo & hi & L1 & L2 & L). 
    destruct (C83_map colormaps cs (fst i) (snd i) m lo hi [] Pl Nn C M H L1 L2 L) as (y & E & F). exists y. split; [exists m, lo, hi; auto|].
    assert (Ne : cs <> []) by (intros ->; destruct L1 as ((c & [] & _) & _)).
    destruct (map_loop colormaps cs (fst i) (snd i) m Pl Nn Ne) as (ys & _ & E'); [intros c Ic; destruct (H c Ic) as [(q & X)|X]; eauto|exact C|].
    rewrite E' in E. injection E as <-. exact E'. }
  destruct (foldM_push (fun p i => plot_bool (map x_row cs) (fst i) (snd i) p) (bool_item cs) bools) as (flags & F2 & E2).
  { intros i I. destruct (Hb i I) as (Nn & H). destruct (C83_flags cs (fst i) (snd i) [] Pl Nn H) as (sel & E & S). eexists. split; [exists sel; split; [exact S|reflexivity]|].
    destruct (bool_loop cs (fst i) Pl Nn (snd i) H) as (ys & _ & E'). rewrite E' in E. injection E as <-. exact E'. }
  exists maps, flags. split; [|auto]. unfold to_png, new_plotter. destruct (qeqb_spec (lat_max region - lat_min region) 0); [exfalso; lra|].
  set (a := ((long_max region - long_min region) / (lat_max region - lat_min region))%Q).
  assert (A : (0 <= a)%Q) by (unfold a; apply Qle_shift_div_l; lra). destruct (qltb_spec a 0); [exfalso; lra|]. cbn [bind]. rewrite E1. cbn [bind]. apply E2.
Qed.
Print Assumptions C83_image_partial.

(** C83.  A mesh across the antimeridian cannot be plotted. *)
Theorem C83_antimeridian_refuted : forall colormaps region cs cmaps bools,
  (lat_min region < lat_max region)%Q -> (long_max region < long_min region)%Q -> to_png colormaps region cs cmaps bools = Err ValueError.
Proof.
  intros colormaps region cs cmaps bools La Lo. unfold to_png, new_plotter. destruct (qeqb_spec (lat_max region - lat_min region) 0); [exfalso; lra|].
  set (a := ((long_max region - long_min region) / (lat_max region - lat_min region))%Q).
  assert (A : (a < 0)%Q). { unfold a. apply Qlt_shift_div_r; lra. } destruct (qltb_spec a 0); [reflexivity|contradiction].
Qed.
Print Assumptions C83_antimeridian_refuted.

(** Three cells with ice of 0, 30 and 100 in four colours, two of them land. *)
Example C83_case : let cell k s l := mkXC (mkB (inject_Z k) (inject_Z (k + 1)) 0 1 []) [("SIC"%string, XNum (Fin s)); ("land"%string, XBool l)] k in
  let cs := [cell 0 0%Q false; cell 1 30%Q true; cell 2 100%Q true] in
  (forall c, In c cs -> plain c) /\ least cs "SIC" 0%Q /\ greatest cs "SIC" 100%Q /\
  to_png (fun _ => Some 4) (mkB 0 3 0 1 []) cs (Some [("SIC"%string, "Blues"%string)]) (Some [("land"%string, "green"%string)]) =
    Ok ([(to_polygon (x_bounds (cell 0 0%Q false)), Mapped "Blues" (Entry 0)); (to_polygon (x_bounds (cell 1 0%Q false)), Mapped "Blues" (Entry 1));
         (to_polygon (x_bounds (cell 2 0%Q false)), Mapped "Blues" (Entry 3))] ++
        [(to_polygon (x_bounds (cell 1 0%Q false)), Plain "green"); (to_polygon (x_bounds (cell 2 0%Q false)), Plain "green")])%list.
Proof.
  cbv zeta. split; [|split; [|split]].
  - intros c I. cbn in I. repeat (destruct I as [<-|I]; [split; [repeat constructor; cbn; intuition discriminate|cbn; intuition (subst; discriminate)]|]). destruct I.
  - split; [eexists; split; [left; reflexivity|reflexivity]|]. intros c q I H. cbn in I. repeat (destruct I as [<-|I]; [unfold holds in H; cbn in H; injection H as <-; lra|]). destruct I.
  - split; [eexists; split; [right; right; left; reflexivity|reflexivity]|]. intros c q I H. cbn in I. repeat (destruct I as [<-|I]; [unfold holds in H; cbn in H; injection H as <-; lra|]). destruct I.
  - vm_compute. reflexivity.
Qed.

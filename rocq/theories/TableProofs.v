(** Proofs for C90. *)
From Verif Require Import Base Geo Graph Cell Loaders AddLoader VecLoader Builder Env Spec MeshSpec EnvSpec DataSpec QLib CaseProofs SplitGeo Dict Rep SplitCore Stage BuilderSplit Invariant Grid Build Consequences Reach MeshFacts TrimProofs AggProofs FillProofs Adaptive ChainProofs VectorChain AdaptiveFacts EnvInv EnvMerge EnvJson EnvLink PyStr Dates Config ConfigSpec ConfigProofs Params ParamSpec ParamProofs Pipeline PipeSpec PipeProofs VecHomSpec VecHomProofs MixSpec MixProofs Lut LutFiles LutFilesProofs LutSources TableSpec TableChain.
Open Scope string_scope.
Open Scope Z_scope.

Section Tables.
Variable o : planar.
Variable edge : geom o -> geom o -> bool.
Variable sq : Q -> Q.
Hypothesis Grows : grows o.

(** ** Rows *)
Lemma row_point_of t i : row_of o t (row_point i) = nth_error t i.
Proof. unfold row_of, row_point. cbn [p_lat]. rewrite Qfloor_Z, Nat2Z.id. reflexivity. Qed.
Lemma rows_of_all t : rows_of o t (all_rows o t) = t.
Proof.
  unfold rows_of, all_rows.
  assert (X : forall l t0 k, (forall i, nth_error l i = nth_error t0 (k + i)) ->
    flat_map (fun p => match row_of o t0 p with Some r => [r] | None => [] end) (map row_point (seq k (List.length l))) = l).
  { induction l as [|r l IH]; intros t0 k H; [reflexivity|]. cbn [List.length seq map flat_map]. rewrite row_point_of.
    pose proof (H 0%nat) as H0. rewrite Nat.add_0_r in H0. cbn in H0. rewrite <- H0. cbn [app]. f_equal. apply IH.
    intros i. specialize (H (S i)). cbn in H. rewrite H. f_equal. lia. }
  apply X. intros i. reflexivity.
Qed.
Lemma rows_of_trim t b d : rows_of o t (table_trim o t b d) = val_trim o b (rows_of o t d).
Proof.
  unfold rows_of, table_trim, val_trim. induction d as [|p d IH]; [reflexivity|]. cbn [filter flat_map].
  destruct (row_of o t p) as [r|] eqn:E; cbn [app]; [|exact IH]. cbn [filter]. destruct (g_intersects o (fst r) (g_shape o (Rect b))); [|exact IH].
  cbn [flat_map]. rewrite E. cbn [app]. f_equal. exact IH.
Qed.
Lemma table_nests t : forall a b d, within a b -> table_trim o t a (table_trim o t b d) = table_trim o t a d.
Proof.
  intros a b d W. unfold table_trim. induction d as [|p d IH]; [reflexivity|]. cbn [filter].
  destruct (row_of o t p) as [r|] eqn:E; [|exact IH].
  destruct (g_intersects o (fst r) (g_shape o (Rect b))) eqn:Eb; cbn [filter]; rewrite ?E.
  - destruct (g_intersects o (fst r) (g_shape o (Rect a))); [f_equal|]; exact IH.
  - destruct (g_intersects o (fst r) (g_shape o (Rect a))) eqn:Ea; [|exact IH]. exfalso. pose proof (Grows a b (fst r) W Ea) as X. unfold meets in X. congruence.
Qed.
Lemma val_trim_idem b t : val_trim o b (val_trim o b t) = val_trim o b t.
Proof. apply filter_idem. Qed.
Lemma val_trim_selects b t : selected (fun r => meets o b (fst r)) t (val_trim o b t).
Proof.
  unfold val_trim. induction t as [|r t IH]; cbn [filter]; [constructor|]. destruct (g_intersects o (fst r) (g_shape o (Rect b))) eqn:E; constructor; auto.
  unfold meets. congruence.
Qed.

(** ** Values *)
Lemma table_value_trim n c agg b t : table_value o sq n c agg b (val_trim o b t) = table_value o sq n c agg b t.
Proof. unfold table_value, mean_val, table_std, extreme_val. rewrite !val_trim_idem. reflexivity. Qed.
Lemma lval_worth v : lval_num v = worth v.
Proof. destruct v as [|[|]|]; reflexivity. Qed.
Lemma nan_in l : existsb is_nan l = true <-> In LNan l.
Proof.
  rewrite existsb_exists. split; [intros (v & I & E); destruct v; try discriminate; exact I|]. intros I. exists LNan. split; [exact I|reflexivity].
Qed.
Lemma qsum_const {A} (l : list A) w : (qsum (map (fun _ => w) l) == inject_Z (Z.of_nat (List.length l)) * w)%Q.
Proof.
  unfold qsum. induction l as [|a l IH]; [change (0 == 0 * w)%Q; ring|]. cbn [map fold_right List.length]. rewrite IH, Nat2Z.inj_succ, <- Z.add_1_l, inject_Z_plus.
  change (inject_Z 1) with 1%Q. lra.
Qed.
Lemma qsum_scale {A} (l : list A) f w : (qsum (map (fun p => fst p * snd p) (combine (map f l) (map (fun _ => w) l))) == w * total (map f l))%Q.
Proof.
  unfold qsum, total. induction l as [|a l IH]; [change (0 == w * 0)%Q; ring|]. cbn [map combine fold_right fst snd]. rewrite IH. lra.
Qed.
Lemma average_ok {A} (l : list A) f w : l <> [] -> ~ (w == 0)%Q ->
  exists v, np_average (map f l) (map (fun _ => w) l) = Ok v /\ (v * inject_Z (Z.of_nat (List.length l)) == total (map f l))%Q.
Proof.
  intros N W. unfold np_average. cbv zeta. pose proof (qsum_const l w) as E.
  assert (P : (0 < inject_Z (Z.of_nat (List.length l)))%Q) by (destruct l; [contradiction|]; unfold Qlt; cbn; lia).
  destruct (qeqb_spec (qsum (map (fun _ => w) l)) 0) as [Z|Z].
  - exfalso. rewrite E in Z. apply Qmult_integral in Z as [Z|Z]; [lra|contradiction].
  - eexists. split; [reflexivity|]. rewrite qsum_scale, E. set (k := inject_Z (Z.of_nat (List.length l))) in *. field. split; [exact W|lra].
Qed.
Lemma extremes (max : bool) (l : list lval) : l <> [] -> ~ In LNan l ->
  let v := pick_val (if max then fun x a : Q => qltb a x else qltb) l in
  v <> LNan /\ In (worth v) (map worth l) /\ (forall x, In x (map worth l) -> if max then x <= worth v else worth v <= x)%Q.
Proof.
  intros N Nn. destruct l as [|v0 l]; [contradiction|]. cbv zeta. unfold pick_val.
  destruct (existsb is_nan (v0 :: l)) eqn:E; [apply nan_in in E; contradiction|]. clear E N.
  assert (X : forall l v0, ~ In LNan (v0 :: l) -> 
    let v := fold_left (fun a x => if (if max then fun x a : Q => qltb a x else qltb) (lval_num x) (lval_num a) then x else a) l v0 in
    v <> LNan /\ In (worth v) (map worth (v0 :: l)) /\ (forall x, In x (map worth (v0 :: l)) -> if max then x <= worth v else worth v <= x)%Q).
  { clear. induction l as [|x l IH]; intros v0 N; cbv zeta; cbn [fold_left].
    - split; [intros ->; apply N; left; reflexivity|]. split; [left; reflexivity|]. intros x [<-|[]]. destruct max; lra.
    - match goal with |- context [fold_left _ l ?u] => set (v1 := u) end. assert (N1 : ~ In LNan (v1 :: l)).
      { intros [H|H]; [|apply N; right; right; exact H]. unfold v1 in H. match type of H with (if ?c then _ else _) = _ => destruct c end; apply N; [right; left; exact H|left; exact H]. }
      destruct (IH v1 N1) as (A & B & C). split; [exact A|]. split.
      + cbn [map] in *. destruct B as [B|B]; [|right; right; exact B]. rewrite <- B. unfold v1. match goal with |- context [if ?c then x else v0] => destruct c end; [right; left|left]; reflexivity.
      + assert (D : if max then (worth v0 <= worth v1 /\ worth x <= worth v1)%Q else (worth v1 <= worth v0 /\ worth v1 <= worth x)%Q).
        { assert (Ex : (lval_num x == worth x)%Q) by (rewrite lval_worth; reflexivity). assert (E0 : (lval_num v0 == worth v0)%Q) by (rewrite lval_worth; reflexivity).
          unfold v1. generalize dependent (lval_num x). generalize dependent (lval_num v0). intros. destruct max; qsplit; lra. }
        pose proof (C (worth v1) (or_introl eq_refl)) as C1.
        intros y [<-|[<-|I]]; [| |apply C; right; exact I]; destruct max; lra. }
  apply X. exact Nn.
Qed.
Lemma table_value_ok t b : In (t_agg t) table_aggs ->
  (In (t_agg t) ["MEAN"; "STD"] -> val_trim o b (t_rows t) <> [] -> ~ (g_covered o (map fst (val_trim o b (t_rows t))) (g_shape o (Rect b)) == 0)%Q) ->
  exists v, table_value o sq (t_name t) (t_name t) (t_agg t) b (t_rows t) = Ok v /\ table_own o sq t b v.
Proof.
  intros A W. unfold table_own.
  enough (X : exists v, table_value o sq (t_name t) (t_name t) (t_agg t) b (t_rows t) = Ok v /\ summary sq (t_agg t) (map snd (val_trim o b (t_rows t))) v).
  { destruct X as (v & E & S). exists v. split; [exact E|]. exists (val_trim o b (t_rows t)). split; [apply val_trim_selects|exact S]. }
  unfold table_value, mean_val, table_std, extreme_val, lut_coverage, summary. cbv zeta. rewrite String.eqb_refl. set (agg := t_agg t) in *. clearbody agg.
  set (ps := val_trim o b (t_rows t)) in *. clearbody ps. rewrite map_length.
  destruct (String.eqb_spec agg "COUNT") as [->|Nc]; [eauto|].
  destruct ps as [|r ps']; [exists None; split; [reflexivity|left; auto]|].
  set (ps := r :: ps') in *. assert (Np : ps <> []) by discriminate. assert (Nm : map snd ps <> []) by discriminate.
  assert (Eg : map fst ps = fst r :: map fst ps') by reflexivity.
  assert (Nw : map (fun p : geom o * lval => lval_num (snd p)) ps = map worth (map snd ps)) by (rewrite map_map; apply map_ext; intros; apply lval_worth).
  rewrite Eg in *. set (w := g_covered o _ _) in *.
  assert (Av : In agg ["MEAN"; "STD"] -> ~ (w == 0)%Q) by (intros I; apply W; [exact I|discriminate]). clearbody ps w. clear r ps' Eg W.
  assert (D : In LNan (map snd ps) \/ ~ In LNan (map snd ps)).
  { destruct (existsb is_nan (map snd ps)) eqn:E; [left; apply nan_in, E|right; intros H; apply nan_in in H; congruence]. }
  cbn in A. decompose [or] A; try contradiction; try congruence; subst agg; cbn [existsb String.eqb Ascii.eqb Bool.eqb orb negb].
  - eexists. split; [reflexivity|]. destruct D as [D|D].
    + left. split; [right; exact D|]. unfold pick_val. destruct (map snd ps) as [|v l] eqn:E; [contradiction|]. rewrite (proj2 (nan_in _) D). reflexivity.
    + right. split; [exact Nm|]. split; [exact D|]. destruct (extremes false _ Nm D) as (E1 & E2 & E3). set (v := pick_val _ _) in *. 
      exists (worth v). split; [|left; split; [reflexivity|]; split; assumption]. unfold lval_value. rewrite lval_worth. destruct v; [reflexivity|reflexivity|contradiction].
  - eexists. split; [reflexivity|]. destruct D as [D|D].
    + left. split; [right; exact D|]. unfold pick_val. destruct (map snd ps) as [|v l] eqn:E; [contradiction|]. rewrite (proj2 (nan_in _) D). reflexivity.
    + right. split; [exact Nm|]. split; [exact D|]. destruct (extremes true _ Nm D) as (E1 & E2 & E3). set (v := pick_val _ _) in *. 
      exists (worth v). split; [|right; left; split; [reflexivity|]; split; assumption]. unfold lval_value. rewrite lval_worth. destruct v; [reflexivity|reflexivity|contradiction].
  - destruct (average_ok ps (fun p => lval_num (snd p)) w Np) as (v & Ev & Hv); [apply Av; left; reflexivity|].
    destruct ps as [|p ps']; [contradiction|]. set (ps := p :: ps') in *. rewrite Ev. cbn [bind]. destruct D as [D|D].
    + rewrite (proj2 (nan_in _) D). eexists. split; [reflexivity|]. left. split; [right; exact D|reflexivity].
    + destruct (existsb is_nan (map snd ps)) eqn:E; [apply nan_in in E; contradiction|]. eexists. split; [reflexivity|].
      right. split; [exact Nm|]. split; [exact D|]. eexists. split; [reflexivity|]. right. right. left. split; [reflexivity|]. rewrite <- Nw. exact Hv.
  - destruct (average_ok ps (fun p => lval_num (snd p)) w Np) as (m & Em & Hm); [apply Av; right; left; reflexivity|]. rewrite Em. cbn [bind].
    destruct (average_ok ps (fun p => (lval_num (snd p) - m) * (lval_num (snd p) - m))%Q w Np) as (x & Ex & Hx); [apply Av; right; left; reflexivity|].
    rewrite map_map, Ex. cbn [bind]. destruct D as [D|D].
    + rewrite (proj2 (nan_in _) D). eexists. split; [reflexivity|]. left. split; [right; exact D|reflexivity].
    + destruct (existsb is_nan (map snd ps)) eqn:E; [apply nan_in in E; contradiction|]. eexists. split; [reflexivity|].
      right. split; [exact Nm|]. split; [exact D|]. eexists. split; [reflexivity|]. right. right. right. split; [reflexivity|]. exists m, x. rewrite <- Nw. split; [exact Hm|]. split; [|reflexivity].
      rewrite map_map. exact Hx.
Qed.

(** ** Sources *)
Definition cond_of (c : bool * bool) : cond := mkCond (if fst c then 1 else 0)%Q 0%Q 0%Q (snd c).
Definition table_meta (k : nat) (t : tfeed o) : metadata := mkMeta (tfeed_loader o edge sq k t) (map cond_of (t_conds t)) (t_fill t) (all_rows o (t_rows t)).
Definition ometa (k : nat) (s : origin o) : metadata := match s with Point s => meta_of sq k s | Table t => table_meta k t end.
Definition sound (b : boundary) (s : origin o) : Prop :=
  match s with
  | Point s => good s
  | Table t => In (t_agg t) table_aggs /\ (In (t_agg t) ["MEAN"; "STD"] -> weighty o b (t_rows t)) /\ (t_fill t = FillParent \/ exists q, t_fill t = FillNum q)
  end.
Fixpoint ometas (k : nat) (ss : list (origin o)) : list metadata :=
  match ss with [] => [] | s :: ss' => ometa k s :: ometas (S k) ss' end.
Lemma ometas_nth ss : forall k i s, nth_error ss i = Some s -> nth_error (ometas k ss) i = Some (ometa (k + i) s).
Proof.
  induction ss as [|g ss IH]; intros k [|i] s H; try discriminate; cbn in *.
  - injection H as ->. rewrite Nat.add_0_r. auto.
  - rewrite (IH (S k) i s H). do 2 f_equal. lia.
Qed.
Lemma ometas_length ss : forall k, List.length (ometas k ss) = List.length ss.
Proof. induction ss as [|f ss IH]; intros k; cbn; auto. Qed.
Lemma ometas_nth_inv ss k i m : nth_error (ometas k ss) i = Some m -> exists s, nth_error ss i = Some s /\ m = ometa (k + i) s.
Proof.
  intros H. assert (L : (i < List.length ss)%nat) by (rewrite <- (ometas_length ss k); apply nth_error_Some; congruence).
  destruct (nth_error ss i) as [s|] eqn:E; [|apply nth_error_None in E; lia]. exists s. split; [reflexivity|].
  rewrite (ometas_nth ss k i s E) in H. congruence.
Qed.
Lemma ometas_in ss s k : In s (ometas k ss) -> exists i f, In f ss /\ s = ometa i f.
Proof. intros H. apply In_nth_error in H as (i & H). apply ometas_nth_inv in H as (f & F & ->). exists (k + i)%nat, f. split; [eapply nth_error_In; eauto|reflexivity]. Qed.
Lemma ometas_in_inv ss f : In f ss -> forall k, exists i, In (ometa i f) (ometas k ss).
Proof. intros H k. apply In_nth_error in H as (i & H). exists (k + i)%nat. eapply nth_error_In. apply ometas_nth. exact H. Qed.
Lemma ometas_firstn n ss : forall k, firstn n (ometas k ss) = ometas k (firstn n ss).
Proof. revert n. induction ss as [|f ss IH]; intros [|n] k; cbn; auto. rewrite IH. auto. Qed.
Lemma ometa_uid k s : uid_of (ometa k s) = Z.of_nat k.
Proof. destruct s as [s|t]; [apply meta_uid|reflexivity]. Qed.
Lemma ometa_names k s : l_names (m_loader (ometa k s)) = labels o s.
Proof. destruct s as [s|t]; [apply meta_names|reflexivity]. Qed.
Lemma ometas_uids ss : forall k, NoDup (map uid_of (ometas k ss)) /\ forall z, In z (map uid_of (ometas k ss)) -> Z.of_nat k <= z.
Proof.
  induction ss as [|g ss IH]; intros k; cbn [ometas map]; [split; [constructor|intros z []]|]. destruct (IH (S k)) as [N L]. rewrite ometa_uid. split.
  - constructor; auto. intros H. apply L in H. lia.
  - intros z [<-|H]; [lia|]. apply L in H. lia.
Qed.
Lemma table_not_vec k t : is_vec (ometa k (Table t)) = false.
Proof. reflexivity. Qed.
Lemma ometa_vec k s : is_vec (ometa k s) = true -> exists v, s = Point (Vector v).
Proof. destruct s as [[f|v]|t]; cbn [ometa]; [rewrite scalar_not_vec; discriminate|eauto|intros H; discriminate H]. Qed.

(** Values of tables in cells *)
Lemma table_single b k t : times_ok (time_range b) -> sound b (Table t) -> single_like b (table_meta k t).
Proof.
  intros T (A & W & F). split; [reflexivity|]. split; [exact F|]. intros a Wa Ta. cbn [table_meta m_loader m_subset tfeed_loader table_loader l_value l_trim].
  unfold source_name. cbn [table_meta m_loader tfeed_loader table_loader l_names]. rewrite rows_of_trim, rows_of_all, table_value_trim.
  destruct (table_value_ok t a A) as (v & E & _); [|rewrite E; exists v; auto].
  intros I N. apply (W I a); auto. apply val_trim_selects.
Qed.
Lemma scalar_single b k f : times_ok (time_range b) -> PipeProofs.usable f -> single_like b (feed_meta sq k f).
Proof.
  intros T U. destruct (feed_scalar sq k f U) as (Sc & Fl). split; [unfold source_name; cbn; rewrite feed_names; reflexivity|]. split; [exact Fl|].
  intros a Wa Ta. pose proof Wa as (W1 & _). change (scalar_loader (m_loader (feed_meta sq k f))) in Sc.
  assert (Ea : times_ok (time_range a)) by (rewrite Ta; exact T).
  destruct (scalar_value_whole _ a (m_subset (feed_meta sq k f)) _ Sc W1 Ea (scalar_trims _ Sc a _ W1 Ea)) as (v & V1 & V2).
  rewrite feed_source_name. cbn [m_loader feed_meta] in *. rewrite feed_names in *. cbn [hd] in *. eauto.
Qed.
Lemma sound_cut b k s : times_ok (time_range b) -> sound b s -> cut_source b (ometa k s).
Proof.
  intros T G. destruct s as [s|t].
  - pose proof (good_mix sq k s G) as M. split; [apply trims_nests, mix_trims, M|]. destruct s as [f|v]; [left|right; destruct M as [(V & _)|M]; [|exact M]].
    + split; [apply scalar_not_vec|]. apply scalar_single; auto.
    + cbn [ometa] in *. rewrite vector_is_vec in V by apply G. discriminate.
  - split; [|left; split; [reflexivity|apply table_single; auto]]. intros a a' d W _ _. apply table_nests. exact W.
Qed.
Lemma ometas_apart ss : labels_apart o ss -> apart (ometas 0 ss).
Proof.
  intros (A1 & A2 & A3). split.
  - intros s n H I. destruct (ometas_in _ _ _ H) as (i & f & Hf & ->). rewrite ometa_names in I. apply (A1 f n Hf I).
  - intros i j s t n Ne Hi Hj V I. apply ometas_nth_inv in Hi as (s0 & Hi & ->). apply ometas_nth_inv in Hj as (t0 & Hj & ->).
    rewrite ometa_names in *. apply ometa_vec in V as (v & ->). eapply A3; eauto.
Qed.

(** What stands in a cell *)
Definition good_cell (b : boundary) (c : cellbox) : Prop := time_range (cb_bounds c) = time_range b /\ within (cb_bounds c) b.
Lemma good_plain b c : times_ok (time_range b) -> good_cell b c -> plain_cell c.
Proof. intros T [E W]. split; [apply W|]. rewrite E. exact T. Qed.
Lemma table_own_cell b k t c : sound b (Table t) -> good_cell b c -> table_own o sq t (cb_bounds c) (whole_value (table_meta k t) c).
Proof.
  intros (A & W & F) [_ Wc]. unfold whole_value. cbn [table_meta m_loader m_subset tfeed_loader table_loader l_value]. rewrite rows_of_all.
  destruct (table_value_ok t (cb_bounds c) A) as (v & E & O).
  { intros I N. apply (W I (cb_bounds c)); auto. apply val_trim_selects. }
  rewrite E. cbn. rewrite String.eqb_refl. exact O.
Qed.
Lemma table_filled_cell b k t c : sound b (Table t) -> Forall (good_cell b) (c :: ancestors c) ->
  table_filled o sq t (map cb_bounds (c :: ancestors c)) (filled_value (table_meta k t) c).
Proof.
  intros U Ch. unfold filled_value. cbn [m_fill table_meta].
  assert (Ow : forall a, In a (c :: ancestors c) -> table_own o sq t (cb_bounds a) (whole_value (table_meta k t) a)).
  { intros a Ha. rewrite Forall_forall in Ch. eapply table_own_cell; eauto. }
  destruct U as (_ & _ & [F|(q & F)]); rewrite F.
  - clear Ch. induction (c :: ancestors c) as [|a l IH]; cbn [map first_known]; [apply tf_none; auto|].
    pose proof (Ow a (or_introl eq_refl)) as O. destruct (whole_value (table_meta k t) a).
    + apply tf_own. auto.
    + apply tf_parent; auto. apply IH. intros; apply Ow; right; auto.
  - cbn [map]. pose proof (Ow c (or_introl eq_refl)) as O. destruct (whole_value (table_meta k t) c).
    + apply tf_own. auto.
    + apply tf_number; auto.
Qed.
Lemma singles_metas b ss : times_ok (time_range b) -> labels_apart o ss -> (forall s, In s ss -> sound b s) -> forall k n c, Forall (good_cell b) (c :: ancestors c) ->
  Forall2 (fun s v => single_filled o sq s (map cb_bounds (c :: ancestors c)) v) (filter (called o n) ss)
    (map (fun s => filled_value s c) (filter (fun s => String.eqb (source_name s) n) (scalar_part (ometas k ss)))).
Proof.
  intros T (_ & L2 & _) G. induction ss as [|s ss IH]; intros k n c Ch; [constructor|].
  specialize (IH (fun v I => L2 v (or_intror I)) (fun s I => G s (or_intror I)) (S k) n c Ch). unfold scalar_part. cbn [ometas filter].
  fold (scalar_part (ometas (S k) ss)). pose proof (G s (or_introl eq_refl)) as Gs. destruct s as [[f|v]|t].
  - cbn [ometa]. rewrite scalar_not_vec. cbn [negb filter called meta_of]. fold (scalar_part (ometas (S k) ss)). rewrite feed_source_name.
    destruct (String.eqb (f_name f) n); [|exact IH]. cbn [map]. constructor; [|exact IH]. cbn [single_filled]. apply feed_filled; auto.
    apply Forall_forall. intros a Ia. rewrite Forall_forall in Ch. eapply good_plain; eauto.
  - cbn [ometa]. rewrite vector_is_vec by apply (L2 v (or_introl eq_refl)). cbn [negb called]. exact IH.
  - rewrite (table_not_vec k t). cbn [negb filter called ometa]. change (source_name (table_meta k t)) with (t_name t). fold (scalar_part (ometas (S k) ss)).
    destruct (String.eqb (t_name t) n); [|exact IH]. cbn [map]. constructor; [|exact IH]. cbn [single_filled]. apply (table_filled_cell b); auto.
Qed.
Lemma cell_stands b ss c n : times_ok (time_range b) -> labels_apart o ss -> (forall s, In s ss -> sound b s) -> Forall (good_cell b) (c :: ancestors c) ->
  stands o sq ss (map cb_bounds (c :: ancestors c)) n (option_map jval_of (mixed_value n (ometas 0 ss) c)).
Proof.
  intros T Ap G Ch. pose proof Ap as (_ & L2 & _). unfold mixed_value. destruct (find (has_name n) (ometas 0 ss)) as [s|] eqn:E.
  - apply find_some in E as [E1 E2]. apply has_name_spec in E2 as [V I]. destruct (ometas_in _ _ _ E1) as (k & s0 & I0 & ->). rewrite ometa_names in I.
    apply ometa_vec in V as (v & ->). left. cbn [labels names_of ometa meta_of] in *. apply In_nth_error in I as (i & I).
    exists v, i, (vec_value (vec_meta sq k v) n c). split; [exact I0|]. split; [exact I|]. split; [|reflexivity].
    apply vec_filled; [apply (G _ I0)| |exact I]. apply Forall_forall. intros a Ia. rewrite Forall_forall in Ch. eapply good_plain; eauto.
  - right. split.
    + intros v Iv In'. destruct (ometas_in_inv ss _ Iv 0%nat) as (i & Hi). apply (find_none _ _ E) in Hi.
      assert (Y : has_name n (ometa i (Point (Vector v))) = true); [|congruence]. apply has_name_spec. rewrite ometa_names. split; [|exact In'].
      apply vector_is_vec. apply (L2 _ Iv).
    + pose proof (singles_metas b ss T Ap G 0%nat n c Ch) as F. eexists. split; [exact F|]. unfold merged_value.
      destruct (filter _ (scalar_part (ometas 0 ss))); reflexivity.
Qed.

(** ** Answers *)
Lemma points_in ss s : In s (points o ss) <-> In (Point s) ss.
Proof.
  unfold points. rewrite in_flat_map. split.
  - intros ([g|v] & I & H); cbn in H; [|destruct H]. destruct H as [<-|[]]. exact I.
  - intros I. exists (Point s). split; [exact I|left; reflexivity].
Qed.
Lemma map_fst_pairs {A B C} (f : A * B -> A * C) (l : list (A * B)) : (forall x, fst (f x) = fst x) -> map fst (map f l) = map fst l.
Proof. intros H. rewrite map_map. apply map_ext. exact H. Qed.
Lemma lut_trim_val b t : lut_trim o b (map (fun r => (fst r, 0%Q)) t) = map (fun r => (fst r, 0%Q)) (val_trim o b t).
Proof. unfold lut_trim, val_trim. induction t as [|r t IH]; [reflexivity|]. cbn [map filter fst]. destruct (g_intersects _ _ _); cbn [map]; rewrite IH; reflexivity. Qed.
Lemma table_hom_answer t b c d h : rows_of o (t_rows t) d = val_trim o b (t_rows t) ->
  (h = table_hom o edge (t_rows t) b (cond_of c) d <-> exists met, selected (fun r => meets o b (fst r)) (t_rows t) met /\ table_answer o edge c b met h).
Proof.
  intros E. unfold table_hom. rewrite E. pose proof (val_trim_selects b (t_rows t)) as S. set (met := val_trim o b (t_rows t)) in *.
  assert (X : lut_hom o edge b (c_lock (cond_of c)) (negb (qeqb (c_threshold (cond_of c)) 0)) (map (fun r => (fst r, 0%Q)) met) =
    if match met with [] => true | _ => false end then (if snd c then HOM else CLR)
    else if fst c && existsb (fun r => edge (fst r) (g_shape o (Rect b))) met then HET else CLR).
  { unfold lut_hom. rewrite lut_trim_val. unfold met at 1 2 3. rewrite val_trim_idem. fold met. cbn [cond_of c_lock c_threshold].
    assert (Et : negb (qeqb (if fst c then 1 else 0) 0) = fst c) by (destruct (fst c); reflexivity). rewrite Et.
    rewrite (map_fst_pairs (fun r => (fst r, 0%Q)) met) by reflexivity.
    assert (Ea : existsb (fun p => g_intersects o p (g_shape o (Rect b))) (map fst met) = match met with [] => false | _ => true end).
    { unfold met. unfold val_trim. clear. induction (t_rows t) as [|r l IH]; [reflexivity|]. cbn [filter]. destruct (g_intersects o (fst r) (g_shape o (Rect b))) eqn:Er; [|exact IH].
      cbn [map existsb]. rewrite Er. reflexivity. }
    rewrite Ea. assert (Ee : forall l : list (geom o * lval), existsb (fun p => edge p (g_shape o (Rect b))) (map fst l) = existsb (fun r => edge (fst r) (g_shape o (Rect b))) l).
    { induction l as [|r l IH]; [reflexivity|]. cbn. rewrite IH. reflexivity. }
    rewrite Ee. destruct met; cbn [negb]; [reflexivity|]. destruct (fst c); reflexivity. }
  rewrite X. clear X. clearbody met.
  assert (Cut : existsb (fun r => edge (fst r) (g_shape o (Rect b))) met = true <-> exists r, In r met /\ edge (fst r) (g_shape o (Rect b)) = true) by apply existsb_exists.
  split.
  - intros ->. exists met. split; [exact S|]. unfold table_answer. destruct met as [|r l]; [left; auto|right]. set (m := r :: l) in *. assert (m <> []) by discriminate. clearbody m.
    destruct (fst c && existsb (fun r => edge (fst r) (g_shape o (Rect b))) m) eqn:Ec.
    + left. apply andb_true_iff in Ec as [E1 E2]. apply Cut in E2. auto.
    + right. split; [assumption|]. split; [|reflexivity]. intros [E1 E2]. apply Cut in E2. rewrite E1, E2 in Ec. discriminate.
  - intros (met' & S' & An). rewrite (selected_unique _ _ _ _ S' S) in *. unfold table_answer in An.
    destruct An as [(-> & ->)|[(N & E1 & E2 & ->)|(N & E1 & ->)]]; [reflexivity| |].
    + apply Cut in E2. rewrite E1, E2. destruct met; [contradiction|reflexivity].
    + destruct (fst c && existsb (fun r => edge (fst r) (g_shape o (Rect b))) met) eqn:Ec; [|destruct met; [contradiction|reflexivity]].
      exfalso. apply andb_true_iff in Ec as [E3 E4]. apply E1. apply Cut in E4. auto.
Qed.
Lemma cut_trim b ss c n : cell_cut b (ometas 0 ss) c ->
  Forall2 (fun s0 s => meta_head s = meta_head s0 /\ m_subset s = l_trim (m_loader s0) (cb_bounds c) (m_subset s0)) (ometas 0 (firstn n ss)) (firstn n (cb_sources c)).
Proof. intros (_ & _ & F). apply (Forall2_firstn _ n) in F. rewrite ometas_firstn in F. exact F. Qed.
Lemma point_selected b k s c : times_ok (time_range b) -> good s -> good_cell b c ->
  selected (belongs (cb_bounds c)) (m_subset (meta_of sq k s)) (l_trim (m_loader (meta_of sq k s)) (cb_bounds c) (m_subset (meta_of sq k s))).
Proof. intros T G [E W]. apply (mix_trims _ (good_mix sq k s G)); [apply W|]. rewrite E. exact T. Qed.
Lemma cut_answers b ss c n h : times_ok (time_range b) -> (forall s, In s ss -> sound b s) -> cell_cut b (ometas 0 ss) c ->
  (answers c n h <-> origin_says o edge (firstn n ss) (cb_bounds c) h).
Proof.
  intros T G D. assert (Gc : good_cell b c) by (destruct D as (D1 & D2 & _); split; assumption).
  assert (Lc : (long_min (cb_bounds c) < long_max (cb_bounds c))%Q) by apply Gc. assert (Tc : times_ok (time_range (cb_bounds c))) by (rewrite (proj1 Gc); exact T).
  pose proof (cut_trim b ss c n D) as F. unfold answers, origin_says, source_says, says_hom. split.
  - intros (s & cd & Hs & Hc & ->). destruct (Forall2_in_r _ _ _ _ F Hs) as (s0 & H0 & Hh & Sel).
    destruct (ometas_in _ _ _ H0) as (i & [[f|v]|t] & Hf & ->); injection Hh as E1 E2 _; pose proof (G _ (firstn_in _ _ _ Hf)) as Gs.
    + left. left. exists f, cd, (m_subset s). split; [apply scalars_in, points_in; exact Hf|]. split; [rewrite <- E2; auto|].
      split; [rewrite Sel; apply (point_selected b i (Scalar f)); auto|]. rewrite E1. apply feed_hom.
    + destruct Gs as (X1 & X2 & X3 & X & R). left. right. assert (Se : selected (belongs (cb_bounds c)) (v_data v) (m_subset s)) by (rewrite Sel; apply (point_selected b i (Vector v)); auto; cbn; auto 6).
      exists v, cd, (m_subset s). split; [apply points_in; exact Hf|]. split; [rewrite <- E2; auto|]. split; [exact Se|].
      apply (vector_answered _ (v_data v) (cb_bounds c)); auto. { intros p I. apply R. exact (selected_sub _ _ _ _ Se I). }
      rewrite E1. cbn [ometa meta_of vec_meta m_loader]. unfold vfeed_loader. destruct (v_xr v); [|reflexivity]. exfalso. cbn in E2. rewrite E2, X in Hc by reflexivity. destruct Hc.
    + right. cbn [ometa table_meta m_conds m_subset m_loader] in *. rewrite E2 in Hc. apply in_map_iff in Hc as (cc & <- & Hc).
      assert (Er : rows_of o (t_rows t) (m_subset s) = val_trim o (cb_bounds c) (t_rows t)).
      { rewrite Sel. cbn [tfeed_loader table_loader l_trim]. rewrite rows_of_trim, rows_of_all. reflexivity. }
      rewrite E1. cbn [tfeed_loader table_loader l_hom].
      destruct (proj1 (table_hom_answer t (cb_bounds c) cc (m_subset s) _ Er) eq_refl) as (met & S & An). exists t, cc, met. auto.
  - intros [[(f & cd & pts & Hf & Hc & Sel & ->)|(v & cd & pts & Hf & Hc & Sel & An)]|(t & cc & met & Hf & Hc & Sel & An)].
    + apply scalars_in, points_in in Hf. destruct (ometas_in_inv _ _ Hf 0%nat) as (i & Hi). pose proof (G _ (firstn_in _ _ _ Hf)) as Gs.
      destruct (Forall2_in_l _ _ _ _ F Hi) as (s & Hs & Hh & Sel'). injection Hh as E1 E2 _.
      exists s, cd. split; auto. split; [rewrite E2; auto|]. rewrite E1, Sel'. cbn [ometa meta_of feed_meta m_loader m_subset]. rewrite feed_hom. do 2 f_equal. eapply selected_fun; [exact Sel|].
      apply (point_selected b i (Scalar f)); auto.
    + apply points_in in Hf. destruct (ometas_in_inv _ _ Hf 0%nat) as (i & Hi). destruct (Forall2_in_l _ _ _ _ F Hi) as (s & Hs & Hh & Sel'). injection Hh as E1 E2 _.
      pose proof (G _ (firstn_in _ _ _ Hf)) as Gs. pose proof Gs as (X1 & X2 & X3 & X & R).
      assert (Se : selected (belongs (cb_bounds c)) (v_data v) (m_subset s)) by (rewrite Sel'; apply (point_selected b i (Vector v)); auto).
      apply (vector_answered _ (v_data v) (cb_bounds c)) in An; auto. 2: { intros p I. apply R. exact (selected_sub _ _ _ _ Sel I). }
      exists s, cd. split; auto. split; [rewrite E2; auto|]. rewrite E1, An. cbn [ometa meta_of vec_meta m_loader].
      unfold vfeed_loader. destruct (v_xr v); [exfalso; rewrite X in Hc by reflexivity; destruct Hc|]. reflexivity.
    + destruct (ometas_in_inv _ _ Hf 0%nat) as (i & Hi). destruct (Forall2_in_l _ _ _ _ F Hi) as (s & Hs & Hh & Sel'). injection Hh as E1 E2 _.
      exists s, (cond_of cc). split; auto. cbn [ometa table_meta m_conds m_subset m_loader] in *. split; [rewrite E2; apply in_map; exact Hc|].
      rewrite E1. cbn [tfeed_loader table_loader l_hom]. apply table_hom_answer; [|exists met; auto].
      rewrite Sel'. cbn [tfeed_loader table_loader l_trim]. rewrite rows_of_trim, rows_of_all. reflexivity.
Qed.
Lemma cut_wants b ss c n : times_ok (time_range b) -> (forall s, In s ss -> sound b s) -> cell_cut b (ometas 0 ss) c ->
  (wants_split c n <-> should_split o edge (firstn n ss) (cb_bounds c)).
Proof. intros T G D. unfold wants_split, should_split. rewrite !(cut_answers b ss c n) by assumption. tauto. Qed.
End Tables.

(** ** Reading the sources *)
Lemma table_condition_read name j c : table_condition_says name j c -> (x <- jget j name ;; lut_cond_of x) = Ok (cond_of c).
Proof.
  intros (d & p & -> & E & B & L). rewrite (jget_at _ _ _ E). cbn [bind]. unfold lut_cond_of. rewrite (jget_at _ _ _ B), (jget_at _ _ _ L). cbn [bind py_bool].
  unfold cond_of. destruct c as [[|] [|]]; reflexivity.
Qed.
Lemma table_conditions_read p name cs : table_conditions_say p name cs -> table_conditions p [name] = Ok (map cond_of cs).
Proof.
  unfold table_conditions_say, table_conditions. destruct (sget p "splitting_conditions") as [j|]; [|intros ->; auto].
  intros (l & -> & F). cbn [as_arr bind]. change (join_names [name]) with name.
  induction F as [|j c l cs H F IH]; auto. cbn [mapM map]. rewrite (table_condition_read _ _ _ H). cbn [bind]. rewrite IH. reflexivity.
Qed.
Lemma is_table cls : In cls table_classes -> table_class cls = true.
Proof. intros H. cbn in H. decompose [or] H; subst; try contradiction; reflexivity. Qed.
Lemma fill_known p f : fill_says p f -> f = FillParent \/ exists q, f = FillNum q.
Proof.
  unfold fill_says. destruct (sget p "value_fill_types"); [|auto]. intros [(_ & ->)|[(q & _ & ->)|(t & _ & ->)]]; eauto.
Qed.
Lemma table_read glob ft construct o edge sq b min_dp k src t j :
  loader_says j src -> offers o edge sq glob construct b min_dp k src (Table t) ->
  source_metadata glob ft construct b min_dp k j = Ok (table_meta o edge sq k t).
Proof.
  destruct src as [nm ps].
  intros (d & -> & L1 & L2 & _) ((cls & p & p' & E1 & E2 & E3 & Tc) & _ & _ & Hc & Hf). cbn [fst snd] in *.
  unfold source_metadata. rewrite (jget_at _ _ _ L1), (jget_at _ _ _ L2). cbn [bind as_str as_obj].
  rewrite E1. cbn [bind fst snd]. rewrite E2. cbn [bind]. rewrite E3. cbn [bind fst snd]. rewrite (is_table _ Tc).
  change (l_names (tfeed_loader o edge sq k t)) with [t_name t].
  assert (U : forall x, In x ["splitting_conditions"; "value_fill_types"] -> sget p' x = sget ps x).
  { intros x Hx. rewrite (defaults_untouched _ _ _ x) by (try exact E2; cbn in Hx |- *; tauto). apply (factory_untouched _ _ _ _ _ _ _ Hx E1). }
  rewrite (table_conditions_read p' (t_name t) (t_conds t)); [|unfold table_conditions_say in *; rewrite U by (left; reflexivity); exact Hc]. cbn [bind].
  pose proof (fill_read ft p' (t_fill t) (fill_ext ps p' (t_fill t) (U _ (or_intror (or_introl eq_refl))) Hf)) as Fr.
  destruct (check_value_fill_type ft p') as [w|]; [|discriminate]. cbn [bind] in *. rewrite Fr. reflexivity.
Qed.
Lemma offer_read glob ft construct o edge sq b min_dp d ls ss : forall k,
  Forall2 loader_says d ls ->
  (forall i src s, nth_error ls i = Some src -> nth_error ss i = Some s -> offers o edge sq glob construct b min_dp (k + i) src s) ->
  (forall v, In (Point (Vector v)) ss -> (2 <= List.length (v_names v))%nat) ->
  List.length ss = List.length ls ->
  mapM (fun kj => source_metadata glob ft construct b min_dp (fst kj) (snd kj)) (combine (seq k (List.length d)) d) = Ok (ometas o edge sq k ss).
Proof.
  revert ls ss. induction d as [|j d IH]; intros ls ss k F Hs L2 Len; inversion F as [|? src ? ls' Hj F']; subst.
  - destruct ss; [reflexivity|discriminate].
  - destruct ss as [|s ss]; [discriminate|]. cbn [List.length seq combine mapM fst snd].
    assert (R : source_metadata glob ft construct b min_dp k j = Ok (ometa o edge sq k s)).
    { specialize (Hs 0%nat src s eq_refl eq_refl). rewrite Nat.add_0_r in Hs. destruct s as [[f|v]|t].
      - apply (source_read glob ft construct sq b min_dp k src f j Hj Hs).
      - apply (vec_read glob ft construct sq b min_dp k src v j); auto. apply L2. left. reflexivity.
      - apply (table_read glob ft construct o edge sq b min_dp k src t j Hj Hs). }
    rewrite R. cbn [bind]. rewrite (IH ls' ss (S k) F'); [reflexivity| | |cbn in Len; lia].
    + intros i s0 f0 H1 H2. specialize (Hs (S i) s0 f0 H1 H2). replace (S k + i)%nat with (k + S i)%nat by lia. exact Hs.
    + intros v I. apply L2. right. exact I.
Qed.

Section Offered.
Variable o : planar.
Variable edge : geom o -> geom o -> bool.
Hypothesis Grows : grows o.
Variables (files : string -> option json) (pad : bool) (now : Z) (glob : string -> list string) (ft : string -> bool).
Variable construct : nat -> string -> params -> boundary -> res (loader * data).
Variables (sq : Q -> Q) (cfg : json) (s : settings) (b : boundary) (ss : list (origin o)).
Hypothesis Hv : validate_mesh_config files cfg = Ok tt.
Hypothesis Hs : says cfg s.
Hypothesis Hb : from_json pad now cfg = Ok b.
Hypothesis Ha : admissible b (s_width s) (s_height s).
Hypothesis Hlat : (s_lat_min s < s_lat_max s)%Q.
Hypothesis Hlat' : (s_lat_max s - s_lat_min s < 360)%Q.
Hypothesis Hp : 0 <= s_points s.
Hypothesis Hl : List.length ss = List.length (s_loaders s).
Hypothesis Hf : forall k src f, nth_error (s_loaders s) k = Some src -> nth_error ss k = Some f ->
  offers o edge sq glob construct b (s_points s) k src f.
Hypothesis Hn : labels_apart o ss.

Lemma os_sound f : In f ss -> sound o b f.
Proof.
  intros H. pose proof H as I. apply In_nth_error in H as (k & H).
  destruct (nth_error (s_loaders s) k) as [src|] eqn:E.
  - pose proof (Hf k src f E H) as P. destruct f as [[f|v]|t]; cbn [offers provides sound good] in *; [eapply supplies_usable; eauto| |].
    + destruct P as (_ & A & _ & X & R & _). destruct Hn as (_ & N & _). destruct (N v I) as [N1 N2]. auto 6.
    + destruct P as (_ & A & W & _ & F). split; [exact A|]. split; [exact W|]. eapply fill_known; eauto.
  - apply nth_error_None in E. assert (k < List.length ss)%nat by (apply nth_error_Some; congruence). lia.
Qed.
Lemma off_bounds_valid : validate_bounds b (s_width s) (s_height s) = Ok tt.
Proof.
  pose proof Hv as V. apply (validate_says files cfg s Hs) in V as (_ & _ & A1 & A2).
  destruct (from_json_says pad now cfg s b Hs Hb) as (F1 & F2 & F3 & F4 & F5 & _).
  apply steps_checked; rewrite ?F1, ?F2, ?F3, ?F4; auto.
Qed.
Lemma off_mesh_built srcs : exists m, build_mesh b (s_width s) (s_height s) srcs = Ok m.
Proof.
  destruct (validate_divides _ _ _ Ha off_bounds_valid) as (R & C & _ & HC & HR & _).
  apply build_total; auto; [exists C|exists R]; auto.
Qed.
Lemma off_bounds_made : exists bs, initialize_bounds b (s_width s) (s_height s) = Ok bs.
Proof.
  destruct (off_mesh_built []) as (m & E). unfold build_mesh in E. rewrite off_bounds_valid in E. cbn [bind] in E.
  unfold initialize_cellboxes in E. destruct (initialize_bounds b (s_width s) (s_height s)) as [bs|]; [eauto|discriminate].
Qed.
Lemma off_init_ok : exists m, mesh_builder_init files pad now glob ft construct cfg = Ok (b, m, s_depth s) /\
  build_mesh b (s_width s) (s_height s) (ometas o edge sq 0 ss) = Ok m.
Proof.
  destruct (off_mesh_built (ometas o edge sq 0 ss)) as (m & E). exists m. split; auto.
  unfold mesh_builder_init. rewrite Hv. cbn [bind]. rewrite Hb. cbn [bind].
  rewrite (says_width cfg s Hs), (says_height cfg s Hs). cbn [bind]. rewrite off_bounds_valid. cbn [bind].
  destruct off_bounds_made as (bs & ->). cbn [bind].
  pose proof Hs as (oo & r & d & p & Eo & Er & _ & Ed & Fl & Ep & (vd & Vd1 & Vd2) & (vp & Vp1 & Vp2) & _). rewrite Eo.
  unfold splitting_entry, initialize_meta_data. rewrite (jget_at _ _ _ Ep), (jget_at _ _ _ Ed). cbn [bind as_arr].
  rewrite (jget_at _ _ _ Vp1), (jget_at _ _ _ Vd1). cbn [bind]. rewrite (whole_read _ _ Vp2), (whole_read _ _ Vd2). cbn [bind].
  rewrite (offer_read glob ft construct o edge sq b (s_points s) d (s_loaders s) ss 0 Fl); auto; [|intros v I; apply (proj1 (proj2 Hn) v I)].
  cbn [bind]. assert (X : s_points s <? 0 = false) by (apply Z.ltb_ge; auto). rewrite X.
  destruct bs; cbn [bind]; rewrite E; reflexivity.
Qed.
Lemma offered_named n c : mixed_value n (ometas o edge sq 0 ss) c <> None -> exists f, In f ss /\ In n (labels o f).
Proof.
  unfold mixed_value. destruct (find _ _) as [x|] eqn:E.
  - intros _. apply find_some in E as [E1 E2]. apply has_name_spec in E2 as [_ I]. destruct (ometas_in o edge sq _ _ _ E1) as (i & f & Hi & ->).
    rewrite ometa_names in I. eauto.
  - unfold merged_value. destruct (filter _ (scalar_part _)) as [|x l] eqn:Ef; [congruence|]. intros _.
    assert (I : In x (filter (fun x => String.eqb (source_name x) n) (scalar_part (ometas o edge sq 0 ss)))) by (rewrite Ef; left; reflexivity).
    apply filter_In in I as [I En]. apply String.eqb_eq in En. apply filter_In in I as [I V]. destruct (ometas_in o edge sq _ _ _ I) as (i & f & Hi & ->).
    destruct f as [[f|v]|t]; [| |exists (Table t); split; [exact Hi|left; exact En]].
    + cbn [ometa meta_of] in En. rewrite feed_source_name in En. exists (Point (Scalar f)). split; [exact Hi|left; exact En].
    + cbn [ometa] in V. rewrite vector_is_vec in V by (apply (proj1 (proj2 Hn) v Hi)). discriminate.
Qed.
Theorem offered : exists fuel em em',
  (forall fuel', (fuel <= fuel')%nat -> generate files pad now glob ft construct fuel' cfg = Ok em) /\
  load_from_json (to_json em) = Ok em' /\
  em_bounds em = b /\ em_bounds em' = b /\
  em_config em = mkCfg b (s_width s) (s_height s) (s_depth s) [] /\ em_config em' = em_config em /\
  map e_id (em_cells em') = map e_id (em_cells em) /\ map e_data (em_cells em') = map e_data (em_cells em) /\
  map e_bounds (em_cells em') = map without_times (map e_bounds (em_cells em)) /\
  NoDup (map e_id (em_cells em')) /\ env_tiles (region b) (em_cells em') /\
  (~ spans_globe b -> lists_contacts touches (em_cells em') (em_graph em')) /\
  (spans_globe b -> lists_contacts touches_mod (em_cells em') (em_graph em')) /\
  (forall c, In c (em_cells em) -> as_offered o edge sq ss b (s_width s) (s_height s) (s_depth s) c).
Proof.
  destruct off_init_ok as (m & Ei & Eb).
  destruct (from_json_says pad now cfg s b Hs Hb) as (F1 & F2 & F3 & F4 & F5 & _).
  assert (Lb : (lat_min b < lat_max b)%Q) by (rewrite F1, F2; auto).
  destruct (first_cell _ _ _ _ _ Ha Eb Lb) as (c0 & L0).
  assert (Rm : reachable b (s_width s) (s_height s) (ometas o edge sq 0 ss) m) by (exists m; split; auto; constructor).
  assert (Sc : forall x, In x (ometas o edge sq 0 ss) -> cut_source b x).
  { intros x Hx. destruct (ometas_in o edge sq _ _ _ Hx) as (i & f & Hi & ->). apply sound_cut; auto; [apply Ha|apply os_sound; auto]. }
  destruct (ometas_uids o edge sq ss 0) as [Nu _].
  destruct (environmental_cut _ _ _ _ _ _ (s_depth s) Ha Rm L0 Sc Nu (ometas_apart o edge sq ss Hn)) as (fu & m' & acs & Ee & Rm' & Fc).
  destruct (adaptive _ _ _ _ _ _ (s_depth s) Ha Rm L0) as (fu2 & m2 & Ea & _ & By & Dp & St).
  pose proof (Ee (fu + fu2)%nat ltac:(lia)) as Ef.
  destruct (environmental_mesh_agrees _ _ _ _ _ Ef) as (Es & Ids & Bds).
  rewrite Ea in Es by lia. injection Es as ->.
  set (c1 := mkCfg b (s_width s) (s_height s) (s_depth s) []).
  assert (Pd : forall ac, In ac acs -> plain_data (e_data (ecell_of ac))).
  { intros ac Hac. destruct (Forall2_in_r _ _ _ _ Fc Hac) as (c & Hc & _ & _ & Hd). cbn [e_data ecell_of]. unfold plain_data.
    assert (Km : map fst (map (fun kv : string * aval => (fst kv, jval_of (snd kv))) (ac_data ac)) = map fst (ac_data ac)) by (rewrite map_map; reflexivity).
    rewrite Km. split.
    - unfold build_environmental_mesh in Ef. rewrite Ea in Ef by lia. cbn [bind] in Ef. fold (live_list m') in Ef.
      destruct (mapM aggregate (live_list m')) as [l|] eqn:Em; [|discriminate]. injection Ef as ->.
      destruct (Forall2_in_r _ _ _ _ (mapM_Forall2 _ _ _ Em) Hac) as (c' & _ & Ag). eapply aggregate_nodup; eauto.
    - intros n Hin. apply sget_in in Hin. rewrite Hd in Hin. destruct (offered_named n c Hin) as (f & I1 & I2). apply (proj1 Hn f n I1 I2). }
  destruct (built_loads _ _ _ _ _ _ c1 Ha Rm' Ids Bds Pd eq_refl) as (em' & Ld & B1 & B2 & B3 & B4 & B5 & _ & B7 & B8 & B9).
  exists (fu + fu2)%nat, (env_of c1 m' acs), em'. split.
  { intros fuel' Hf'. unfold generate. rewrite Ei. cbn [bind]. rewrite (says_width cfg s Hs), (says_height cfg s Hs). cbn [bind].
    rewrite (Ee fuel') by lia. reflexivity. }
  split; auto. split; [reflexivity|]. split; auto. split; [reflexivity|]. split; auto.
  assert (Dr : forall c, In c (em_cells (env_of c1 m' acs)) -> drawable (e_bounds c) /\ plain_data (e_data c)).
  { cbn [env_of em_cells]. intros c Hc. apply in_map_iff in Hc as (ac & <- & Hac). split; [|apply Pd; auto].
    cbn [e_bounds ecell_of]. destruct (Forall2_in_r _ _ _ _ Fc Hac) as (x & Hx & _ & -> & _). apply live_list_In in Hx as (i & Lx).
    destruct (reachable_inv _ _ _ _ _ Ha Rm') as ((I1 & _) & _). destruct (I1 i x Lx) as (_ & ((R1 & R2) & K1 & K2 & _) & _).
    unfold drawable. cbn. auto. }
  destruct (round_trip (env_of c1 m' acs) Dr) as (em2 & Ld2 & _ & _ & T1 & T2 & T3 & _).
  { cbn [env_of em_config c1 c_region]. destruct Ha as (((V1 & V2 & V3 & V4) & V5) & _). split; auto. }
  rewrite Ld in Ld2. injection Ld2 as <-.
  do 3 (split; [assumption|]). split; auto. split; auto. split; auto. split; auto.
  cbn [env_of em_cells]. intros c Hc. apply in_map_iff in Hc as (ac & <- & Hac).
  destruct (Forall2_in_r _ _ _ _ Fc Hac) as (x & Hx & _ & Hbx & Hd). apply live_list_In in Hx as (i & Lx).
  assert (Tr : forall y, In y (ometas o edge sq 0 ss) -> nests (m_loader y)) by (intros y Hy; apply (Sc y Hy)).
  pose proof (reachable_cut _ _ _ _ _ Ha Rm' Tr i x Lx) as Ch. rewrite Forall_forall in Ch.
  destruct (reachable_nested _ _ _ _ _ _ _ Ha Rm' Lx) as [Ne De].
  assert (Tt : times_ok (time_range b)) by apply Ha.
  assert (An : Forall (may_split (s_depth s) (List.length (ometas o edge sq 0 ss))) (ancestors x)).
  { eapply (by_ancestors _ m m'); eauto; [apply (reachable_inv _ _ _ _ _ Ha Rm)|]. intros j y Ly.
    destruct (build_cell _ _ _ _ _ _ _ Ha Eb Ly) as (_ & P & _). rewrite (ancestors_root _ P). constructor. }
  rewrite ometas_length in *. exists (map cb_bounds (ancestors x)). cbn [e_bounds e_data ecell_of]. rewrite Hbx.
  split; [exact Ne|]. rewrite map_length. split; [|split; [|split]].
  - rewrite <- De. destruct (Dp i x Lx) as [L|L]; [|lia]. destruct (build_cell _ _ _ _ _ _ _ Ha Eb L) as (_ & _ & -> & _). lia.
  - intros b' Hb'. apply in_map_iff in Hb' as (a & <- & Ia). rewrite Forall_forall in An. destruct (An a Ia) as (_ & n & _ & W).
    exists n. eapply cut_wants; [exact Tt|exact os_sound|apply (Ch a); right; auto|exact W].
  - rewrite <- De. intros D O. destruct (St i x Lx D) as [_ W]. apply W. eapply cut_wants; [exact Tt|exact os_sound|apply (Ch x); left; auto|].
    rewrite firstn_all. exact O.
  - intros n. rewrite sget_map_snd, Hd. change (cb_bounds x :: map cb_bounds (ancestors x)) with (map cb_bounds (x :: ancestors x)).
    apply (cell_stands o edge sq b); [exact Tt|exact Hn|exact os_sound|]. apply Forall_forall. intros a Ia. destruct (Ch a Ia) as (Ta & Wa & _). split; assumption.
Qed.
End Offered.

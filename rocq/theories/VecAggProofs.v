(** Proofs about the aggregation of vectors (C70). *)
From Verif Require Import Base QLib Geo Cell Loaders Builder AddLoader Spec MeshSpec DataSpec TrimProofs VecAgg VecAggSpec.
Open Scope Q_scope.

Lemma mag2_length p m : mag2 p = Some m -> length2 (p_vals p) m.
Proof.
  unfold mag2. revert m. induction (p_vals p) as [|[x|] v IH]; intros m; cbn; [intros E; injection E as <-; reflexivity| |discriminate].
  destruct (fold_right _ (Some 0) v) as [a|]; [|discriminate]. intros E; injection E as <-. exists a. split; [apply IH; reflexivity|reflexivity].
Qed.
Lemma mag2_none p m : mag2 p = None -> ~ length2 (p_vals p) m.
Proof.
  unfold mag2. revert m. induction (p_vals p) as [|[x|] v IH]; intros m; cbn; [discriminate| |intros _ H; exact H].
  destruct (fold_right _ (Some 0) v) as [a|]; [discriminate|]. intros _ (m' & H & _). exact (IH m' eq_refl H).
Qed.
Lemma length2_unique v : forall m m', length2 v m -> length2 v m' -> m == m'.
Proof. induction v as [|[x|] v IH]; cbn; intros m m'; [lra| |contradiction]. intros (a & A & E) (b & B & F). specialize (IH a b A B). lra. Qed.
Lemma mag2_complete p : complete p <-> exists m, mag2 p = Some m.
Proof.
  unfold complete, mag2. induction (p_vals p) as [|[x|] v IH]; cbn.
  - split; [eexists; reflexivity|intros _ []].
  - split.
    + intros H. destruct (proj1 IH) as (m & ->); [intros I; apply H; right; exact I|]. eexists; reflexivity.
    + intros (m & E) [C|I]; [discriminate|]. destruct (fold_right _ (Some 0) v) as [a|]; [|discriminate]. apply (proj2 IH); eauto.
  - split; [intros H; exfalso; apply H; left; reflexivity|intros (m & E); discriminate].
Qed.

Section Extreme.
  Variable better : Q -> Q -> bool.
  Variable Better : Q -> Q -> Prop.
  Hypothesis spec : forall a b, better a b = true <-> Better a b.
  Hypothesis mono : forall a b a' b', a == a' -> b == b' -> Better a b -> Better a' b'.
  Hypothesis trans : forall a b c, Better a b -> ~ Better c b -> Better a c.
  Hypothesis trans' : forall a b c, Better a b -> Better b c -> Better a c.
  Lemma not_better a b : better a b = false -> ~ Better a b.
  Proof. intros E H. apply spec in H. congruence. Qed.
  (** Generalised over the rows read so far. *)
  Lemma arg_from d : forall d1 p0 m0 d0, mag2 p0 = Some m0 ->
    (forall q m', In q d1 -> length2 (p_vals q) m' -> Better m0 m') -> (forall q m', In q d0 -> length2 (p_vals q) m' -> ~ Better m' m0) ->
    exists p m, arg_extreme better (Some (p0, m0)) d = Some (p, m) /\ mag2 p = Some m /\ first_extreme Better (d1 ++ p0 :: d0 ++ d)%list p.
  Proof.
    induction d as [|q d IH]; intros d1 p0 m0 d0 M A B; cbn [arg_extreme].
    - exists p0, m0. split; [reflexivity|]. split; [exact M|]. exists d1, d0, m0. rewrite app_nil_r. split; [reflexivity|]. split; [apply mag2_length; exact M|]. split; assumption.
    - destruct (mag2 q) as [m|] eqn:Mq.
      + destruct (better m m0) eqn:E.
        * apply spec in E. destruct (IH (d1 ++ p0 :: d0)%list q m [] Mq) as (p & m' & R & Mp & F).
          { intros x mx I L. apply in_app_or in I as [I|[<-|I]].
            - exact (trans' m m0 mx E (A x mx I L)).
            - apply (mono m m0); [reflexivity|apply (length2_unique _ _ _ (mag2_length p0 m0 M) L)|exact E].
            - apply (trans m m0 mx E). exact (B x mx I L). }
          { intros x mx []. }
          exists p, m'. split; [exact R|]. split; [exact Mp|]. rewrite <- app_assoc in F. exact F.
        * destruct (IH d1 p0 m0 (d0 ++ [q])%list M A) as (p & m' & R & Mp & F).
          { intros x mx I L. apply in_app_or in I as [I|[<-|[]]]; [exact (B x mx I L)|]. intros H. apply (not_better m m0 E). apply (mono mx m0); [symmetry; apply (length2_unique _ _ _ (mag2_length q m Mq) L)|reflexivity|exact H]. }
          exists p, m'. split; [exact R|]. split; [exact Mp|]. rewrite <- app_assoc in F. exact F.
      + destruct (IH d1 p0 m0 (d0 ++ [q])%list M A) as (p & m' & R & Mp & F).
        { intros x mx I L. apply in_app_or in I as [I|[<-|[]]]; [exact (B x mx I L)|]. exfalso. exact (mag2_none q mx Mq L). }
        exists p, m'. split; [exact R|]. split; [exact Mp|]. rewrite <- app_assoc in F. exact F.
  Qed.
  Lemma arg_start d : forall d0, (forall q m, In q d0 -> ~ length2 (p_vals q) m) -> (exists p, In p d /\ complete p) ->
    exists p m, arg_extreme better None d = Some (p, m) /\ mag2 p = Some m /\ first_extreme Better (d0 ++ d)%list p.
  Proof.
    induction d as [|q d IH]; intros d0 N (p & I & C); [destruct I|]. cbn [arg_extreme]. destruct (mag2 q) as [m|] eqn:M.
    - apply (arg_from d d0 q m [] M); [|intros x mx []]. intros x mx I' L. exfalso. exact (N x mx I' L).
    - destruct I as [->|I]; [apply mag2_complete in C as (m & E); congruence|].
      destruct (IH (d0 ++ [q])%list) as (p' & m' & R & Mp & F); [|eauto|].
      { intros x mx I' L. apply in_app_or in I' as [I'|[<-|[]]]; [exact (N x mx I' L)|exact (mag2_none q mx M L)]. }
      exists p', m'. split; [exact R|]. split; [exact Mp|]. rewrite <- app_assoc in F. exact F.
  Qed.
End Extreme.

Lemma shorter_ok (d : data) : (exists p, In p d /\ complete p) -> exists p m, arg_extreme qltb None d = Some (p, m) /\ mag2 p = Some m /\ first_extreme shorter d p.
Proof.
  intros H. apply (arg_start qltb shorter) with (d0 := []); auto; unfold shorter.
  - intros a b. apply qltb_true.
  - intros; lra.
  - intros; lra.
  - intros; lra.
Qed.
Lemma longer_ok (d : data) : (exists p, In p d /\ complete p) -> exists p m, arg_extreme (fun a b => qltb b a) None d = Some (p, m) /\ mag2 p = Some m /\ first_extreme longer d p.
Proof.
  intros H. apply (arg_start (fun a b => qltb b a) longer) with (d0 := []); auto; unfold longer.
  - intros a b. apply qltb_true.
  - intros; lra.
  - intros; lra.
  - intros; lra.
Qed.
Lemma arg_none better d : (forall p, In p d -> ~ complete p) -> arg_extreme better None d = None.
Proof.
  induction d as [|p d IH]; intros H; [reflexivity|]. cbn. destruct (mag2 p) as [m|] eqn:M; [exfalso; apply (H p (or_introl eq_refl)), mag2_complete; eauto|]. apply IH. intros q I. apply H. right; exact I.
Qed.
Lemma first_in better d p : first_extreme better d p -> In p d.
Proof. intros (d1 & d2 & m & -> & _). apply in_or_app. right; left; reflexivity. Qed.
Lemma nth_all {A} (d : A) v : map (fun i => nth i v d) (seq 0 (List.length v)) = v.
Proof.
  induction v as [|x v IH]; [reflexivity|]. cbn [List.length seq map nth]. f_equal. rewrite <- seq_shift, map_map. exact IH.
Qed.
Lemma all_nan_mag d : all_nan (map mag2 d) = true <-> forall p, In p d -> ~ complete p.
Proof.
  unfold all_nan. rewrite forallb_forall. split.
  - intros H p I C. apply mag2_complete in C as (m & E). specialize (H (mag2 p) (in_map _ _ _ I)). rewrite E in H. discriminate.
  - intros H v I. apply in_map_iff in I as (p & <- & I). destruct (mag2 p) as [m|] eqn:M; [|reflexivity]. exfalso. apply (H p I), mag2_complete. eauto.
Qed.
Lemma some_complete d : (exists p, In p d /\ complete p) -> all_nan (map mag2 d) = false /\ Nat.eqb (List.length d) 0 = false.
Proof.
  intros (p & I & C). split.
  - apply not_true_iff_false. intros E. apply (proj1 (all_nan_mag d) E p I C).
  - destruct d; [destruct I|reflexivity].
Qed.
Lemma total_drop l : qsum (drop_nan l) = total l.
Proof. induction l as [|[x|] l IH]; [reflexivity| |exact IH]. cbn [total]. rewrite <- IH. reflexivity. Qed.
Lemma known_drop l : Z.of_nat (List.length (drop_nan l)) = known l.
Proof. induction l as [|[x|] l IH]; [reflexivity| |exact IH]. cbn [known]. rewrite <- IH. cbn [drop_nan flat_map app List.length]. unfold drop_nan. lia. Qed.
Lemma mean_total l m : drop_nan l <> [] -> m = qmean (drop_nan l) -> (0 < known l)%Z /\ m * inject_Z (known l) == total l.
Proof.
  intros N ->. rewrite <- known_drop, <- total_drop. destruct (drop_nan l) as [|x r]; [contradiction|]. split; [cbn; lia|]. unfold qmean, qlen. rewrite Qmult_comm. apply Qmult_div_r.
  cbn [List.length]. rewrite Nat2Z.inj_succ. unfold Qeq. cbn. lia.
Qed.
Lemma known_zero l : drop_nan l = [] <-> known l = 0%Z.
Proof. rewrite <- known_drop. destruct (drop_nan l); cbn; split; intros; try reflexivity; try discriminate; lia. Qed.
Lemma deviation_drop m l : qsum (map (fun x => (x - m) * (x - m)) (drop_nan l)) = deviation m l.
Proof. induction l as [|[x|] l IH]; [reflexivity| |exact IH]. cbn [deviation]. rewrite <- IH. reflexivity. Qed.
Lemma deviation_eq m m' l : m == m' -> deviation m l == deviation m' l.
Proof. intros E. induction l as [|[x|] l IH]; cbn; [reflexivity| |exact IH]. rewrite IH, E. reflexivity. Qed.
Lemma sq_dev_deviation l m : drop_nan l <> [] -> m * inject_Z (known l) == total l -> sq_dev (drop_nan l) == deviation m l.
Proof.
  intros N E. unfold sq_dev. rewrite deviation_drop. apply deviation_eq. destruct (mean_total l _ N eq_refl) as (K & M).
  assert (P : 0 < inject_Z (known l)) by (rewrite <- (Qmult_lt_r 0 _ 1) by reflexivity; unfold Qlt; cbn; lia).
  apply (Qmult_inj_r _ _ (inject_Z (known l))); [lra|]. rewrite M, E. reflexivity.
Qed.
Lemma nth_cols {A} (f : nat -> A) d n i : (i < n)%nat -> nth i (map f (seq 0 n)) d = f i.
Proof. intros L. rewrite (nth_indep _ d (f 0%nat)) by (rewrite map_length, seq_length; exact L). rewrite map_nth, seq_nth by exact L. reflexivity. Qed.

(** ** Labels *)
Lemma arg_both better (d : frame) : forall cur : option (nat * point * Q),
  exists r : option (nat * point * Q),
    arg_label better (option_map (fun x => (fst (fst x), snd x)) cur) d = option_map (fun x => (fst (fst x), snd x)) r /\
    arg_extreme better (option_map (fun x => (snd (fst x), snd x)) cur) (rows d) = option_map (fun x => (snd (fst x), snd x)) r /\
    (r = cur \/ exists x, r = Some x /\ In (fst x) d).
Proof.
  induction d as [|[k p] d IH]; intros cur; [exists cur; split; [reflexivity|]; split; [reflexivity|left; reflexivity]|].
  cbn [arg_label rows map snd arg_extreme]. destruct (mag2 p) as [m|].
  - destruct cur as [[[k0 p0] m0]|]; cbn [option_map fst snd].
    + destruct (better m m0).
      * destruct (IH (Some (k, p, m))) as (r & A & B & C). exists r. split; [exact A|]. split; [exact B|]. right. destruct C as [->|(x & -> & I)]; eexists; (split; [reflexivity|]); [left; reflexivity|right; exact I].
      * destruct (IH (Some (k0, p0, m0))) as (r & A & B & C). exists r. split; [exact A|]. split; [exact B|]. destruct C as [->|(x & -> & I)]; [left; reflexivity|right; eexists; split; [reflexivity|right; exact I]].
    + destruct (IH (Some (k, p, m))) as (r & A & B & C). exists r. split; [exact A|]. split; [exact B|]. right. destruct C as [->|(x & -> & I)]; eexists; (split; [reflexivity|]); [left; reflexivity|right; exact I].
  - destruct (IH cur) as (r & A & B & C). exists r. split; [exact A|]. split; [exact B|]. destruct C as [->|(x & -> & I)]; [left; reflexivity|right; eexists; split; [reflexivity|right; exact I]].
Qed.
Lemma by_label_unique (d : frame) k p : NoDup (map fst d) -> In (k, p) d -> filter (fun r => Nat.eqb (fst r) k) d = [(k, p)].
Proof.
  induction d as [|[k0 p0] d IH]; intros N I; [destruct I|]. cbn in N. apply NoDup_cons_iff in N as (N0 & N). cbn [filter fst]. destruct I as [E|I].
  - injection E as -> ->. rewrite Nat.eqb_refl. f_equal. clear IH N. induction d as [|[k1 p1] d IHd]; [reflexivity|]. cbn in N0 |- *. destruct (Nat.eqb_spec k1 k) as [->|]; [exfalso; apply N0; left; reflexivity|].
    apply IHd. intros X. apply N0. right; exact X.
  - destruct (Nat.eqb_spec k0 k) as [->|]; [exfalso; apply N0; apply (in_map fst) in I; exact I|]. apply IH; assumption.
Qed.
Lemma by_label_twice n k (d : frame) : (2 <= List.length (filter (fun r => Nat.eqb (fst r) k) d))%nat -> by_label n k d = Err ValueError.
Proof. unfold by_label. destruct (filter _ d) as [|[a p] [|y l]]; cbn; intros; try lia; reflexivity. Qed.
Lemma frame_df sqrt agg n (d : frame) : NoDup (map fst d) -> vector_values_frame sqrt agg n d = vector_values_df sqrt agg n (rows d).
Proof.
  intros N. unfold vector_values_frame, vector_values_df. assert (L : List.length (rows d) = List.length d) by apply map_length. rewrite L.
  destruct (Nat.eqb (List.length d) 0) eqn:E; [reflexivity|].
  destruct (String.eqb_spec agg "MIN") as [->|]; [|destruct (String.eqb_spec agg "MAX") as [->|]; [|reflexivity]]; cbn [String.eqb Ascii.eqb Bool.eqb].
  - destruct (arg_both qltb d None) as (r & A & B & C). cbn [option_map] in A, B. rewrite A, B. destruct C as [->|([[k p] m] & -> & I)]; cbn [option_map fst snd]; [reflexivity|].
    cbn [fst] in I. unfold by_label. rewrite (by_label_unique d k p N I). reflexivity.
  - destruct (arg_both (fun a b => qltb b a) d None) as (r & A & B & C). cbn [option_map] in A, B. rewrite A, B. destruct C as [->|([[k p] m] & -> & I)]; cbn [option_map fst snd]; [reflexivity|].
    cbn [fst] in I. unfold by_label. rewrite (by_label_unique d k p N I). reflexivity.
Qed.
Lemma frame_repeated sqrt agg n (d : frame) : agg = "MIN"%string \/ agg = "MAX"%string -> (exists p, In p (rows d) /\ complete p) ->
  (forall k p, In (k, p) d -> (2 <= List.length (filter (fun r => Nat.eqb (fst r) k) d))%nat) -> vector_values_frame sqrt agg n d = Err ValueError.
Proof.
  intros G H T. unfold vector_values_frame. destruct (some_complete _ H) as (_ & E). assert (L : List.length (rows d) = List.length d) by apply map_length. rewrite L in E. rewrite E.
  destruct G as [->| ->]; cbn [String.eqb Ascii.eqb Bool.eqb].
  - destruct (shorter_ok _ H) as (p & m & X & _). destruct (arg_both qltb d None) as (r & A & B & C). cbn [option_map] in A, B. rewrite A. rewrite B in X.
    destruct C as [->|([[k q] m'] & -> & I)]; [discriminate|]. cbn [option_map fst snd]. apply by_label_twice. apply (T k q I).
  - destruct (longer_ok _ H) as (p & m & X & _). destruct (arg_both (fun a b => qltb b a) d None) as (r & A & B & C). cbn [option_map] in A, B. rewrite A. rewrite B in X.
    destruct C as [->|([[k q] m'] & -> & I)]; [discriminate|]. cbn [option_map fst snd]. apply by_label_twice. apply (T k q I).
Qed.
Lemma read_labels d : map fst (read_csv d) = seq 0 (List.length d) /\ rows (read_csv d) = d.
Proof.
  unfold read_csv, rows. generalize 0%nat. induction d as [|p d IH]; intros k; [split; reflexivity|]. destruct (IH (S k)) as (A & B). cbn. split; f_equal; assumption.
Qed.
Lemma trim_labels b d : NoDup (map fst d) -> NoDup (map fst (frame_trim b d)).
Proof.
  unfold frame_trim. induction d as [|r d IH]; intros N; [constructor|]. cbn in N. apply NoDup_cons_iff in N as (N0 & N). cbn. destruct (_ && _); [|apply IH; exact N].
  cbn. constructor; [|apply IH; exact N]. intros I. apply N0. apply in_map_iff in I as (x & <- & I). apply filter_In in I as (I & _). apply in_map. exact I.
Qed.
Lemma trim_rows b d : rows (frame_trim b d) = df_trim b (rows d).
Proof. unfold frame_trim, rows, df_trim. induction d as [|r d IH]; [reflexivity|]. cbn. destruct (_ && _); cbn; rewrite IH; reflexivity. Qed.

(** Proofs for saving the tests' meshes. *)
From Coq Require Import String Ascii.
From Verif Require Import Base Geo Cell PyStr Dates Config ParamProofs Compare CompareSpec CompareProofs EnvInv Automate AutoSave AutoSaveSpec.
Open Scope string_scope.
Open Scope Z_scope.

(** ** Names *)
Lemma last_dot_app : forall s b e, last_dot s = Some (b, e) -> s = b ++ e.
Proof.
  induction s as [|c s IH]; intros b e E; [discriminate E|]. cbn [last_dot] in E. destruct (last_dot s) as [[a x]|] eqn:L.
  - injection E as <- <-. cbn. f_equal. apply IH. reflexivity.
  - destruct (Ascii.eqb c "."); [|discriminate E]. injection E as <- <-. reflexivity.
Qed.
Lemma last_dot_ext : forall b, last_dot (b ++ ".json") = Some (b, ".json").
Proof. induction b as [|c b IH]; [reflexivity|]. cbn [append last_dot]. rewrite IH. reflexivity. Qed.
Lemma only_dots_stem : forall b, only_dots b = false <-> stem b.
Proof.
  induction b as [|c b IH]; cbn [only_dots].
  - split; [discriminate|]. intros (l & c & r & E & _). destruct l; discriminate E.
  - destruct (Ascii.eqb c ".") eqn:E; cbn [andb].
    + rewrite IH. split.
      * intros (l & d & r & -> & N). exists (String c l), d, r. split; [reflexivity|exact N].
      * intros (l & d & r & X & N). destruct l as [|c' l]; cbn in X; injection X as -> X.
        -- apply Ascii.eqb_eq in E. contradiction.
        -- exists l, d, r. split; assumption.
    + split; [|reflexivity]. intros _. exists "", c, b. split; [reflexivity|]. intros X. apply Ascii.eqb_eq in X. congruence.
Qed.
Lemma splitext_json : forall s b, splitext s = (b, ".json") <-> s = b ++ ".json" /\ stem b.
Proof.
  intros s b. unfold splitext. split.
  - destruct (last_dot s) as [[a e]|] eqn:L; [|discriminate]. destruct (only_dots a) eqn:O; [discriminate|].
    intros E. injection E as -> ->. split; [apply last_dot_app, L|apply only_dots_stem, O].
  - intros (-> & S). rewrite last_dot_ext. apply only_dots_stem in S. rewrite S. reflexivity.
Qed.
Lemma app_inj_r : forall e a b, a ++ e = b ++ e -> a = b.
Proof.
  assert (L : forall x y, length (x ++ y) = (length x + length y)%nat) by (induction x as [|c x IH]; intros y; cbn; [|rewrite IH]; reflexivity).
  intros e. induction a as [|c a IH]; intros [|d b] E.
  - reflexivity.
  - exfalso. apply (f_equal length) in E. rewrite !L in E. cbn in E. lia.
  - exfalso. apply (f_equal length) in E. rewrite !L in E. cbn in E. lia.
  - cbn in E. injection E as -> E. f_equal. apply IH, E.
Qed.
Lemma svg_json : forall a b, a ++ ".svg" <> b ++ ".json".
Proof.
  intros a b E. assert (X : last_dot (a ++ ".svg") = Some (a, ".svg")) by (clear; induction a as [|c a IH]; [reflexivity|cbn [append last_dot]; rewrite IH; reflexivity]).
  rewrite E, last_dot_ext in X. discriminate X.
Qed.

(** ** Directories *)
Lemma sget_removed : forall d x y, sget (removed d x) y = if String.eqb y x then None else sget d y.
Proof.
  induction d as [|[k v] d IH]; intros x y; cbn [removed filter fst sget].
  - destruct (String.eqb y x); reflexivity.
  - destruct (String.eqb_spec k x) as [->|N]; cbn [negb].
    + change (filter _ d) with (removed d x). rewrite IH. destruct (String.eqb_spec y x); reflexivity.
    + cbn [sget]. change (filter _ d) with (removed d x). rewrite IH. destruct (String.eqb_spec y k) as [->|Nk]; [|reflexivity].
      destruct (String.eqb_spec k x); [contradiction|reflexivity].
Qed.

(** ** Comparing *)
Lemma frame_empty_rows : forall f, (f_rows f <> [] -> f_cols f <> []) -> frame_empty f = true <-> f_rows f = [].
Proof.
  intros [cols rows] H. unfold frame_empty. cbn [f_rows f_cols] in *. destruct rows as [|r rows]; [split; reflexivity|].
  destruct cols; [exfalso; apply H; [discriminate|reflexivity]|]. split; discriminate.
Qed.
Lemma rows_nil : forall {A B} (l : list (A * B)), l = [] <-> forall x, ~ In x (map fst l).
Proof.
  intros A B [|[a b] l]; [split; [intros _ x []|reflexivity]|]. split; [discriminate|]. intros H. exfalso. apply (H a). left. reflexivity.
Qed.
Lemma attributes_cols : forall o n f, mesh_ok o -> mesh_ok n -> with_ids n -> attributes_frame o n = Ok f -> f_rows f <> [] -> f_cols f <> [].
Proof.
  intros o n f O N W E H. unfold attributes_frame in E.
  destruct (by_geometry_ok o O) as [E1 _]. destruct (by_geometry_ok n N) as [E2 _]. rewrite E1, E2 in E. cbn [bind] in E.
  match type of E with context [flat_map ?h ?l] => set (rows := flat_map h l) in E; assert (S : forall c, In c rows -> In c (f_cells n)) end.
  { intros c I. unfold rows in I. apply in_flat_map in I as ([g c1] & _ & I). cbn [fst snd] in I.
    destruct (sget _ g) as [c'|] eqn:S; [|destruct I]. destruct (strs_eqb _ _); [destruct I|]. destruct I as [<-|[]].
    apply ParamProofs.sget_in in S. apply in_map_iff in S as (x & Ex & Ix). injection Ex as _ ->. exact Ix. }
  clearbody rows. destruct rows as [|c rs]; [injection E as <-; exfalso; apply H; reflexivity|].
  injection E as <-. unfold to_frame. cbn [f_cols]. intros X.
  assert (In "id" (columns (c :: rs))) as I.
  { apply columns_in. split; [discriminate|]. exists c. split; [left; reflexivity|]. apply W, S. left. reflexivity. }
  rewrite X in I. destruct I.
Qed.
Theorem compare_reports : forall o n, mesh_ok o -> mesh_ok n -> with_ids n ->
  exists es, compare_meshes o n = Ok es /\ (forallb (fun e => e) es = true <-> ~ reported o n) /\ (forallb (fun e => e) es = false -> reported o n).
Proof.
  intros o n O N W. assert (I : has_attribute n "id").
  { destruct N as [Ne _]. destruct (f_cells n) as [|c cs] eqn:E; [contradiction|]. exists c. rewrite E. split; [left; reflexivity|]. apply W. rewrite E. left. reflexivity. }
  destruct (boundaries_exact o n O N) as (fb & Eb & Hb & _ & _ & Cb).
  destruct (values_exact o n O N) as (fv & Ev & Hv & Cv).
  destruct (attributes_exact o n O N) as (fa & Ea & Ha). pose proof (attributes_cols o n fa O N W Ea) as Ca.
  destruct (graph_exact_report o n O N I) as (g & Eg & Hg).
  unfold compare_meshes. rewrite (indexed_ok n N), Eb, Ev, Ea, Eg. cbn [bind]. eexists. split; [reflexivity|].
  assert (Xb : frame_empty fb = true <-> f_rows fb = []).
  { apply frame_empty_rows. intros H X. assert (In "id" (f_cols fb)) as J by (apply Cb; [exact H|split; [discriminate|exact I]]). rewrite X in J. destruct J. }
  assert (Xv : frame_empty fv = true <-> f_rows fv = []).
  { apply frame_empty_rows. intros H X. destruct (f_rows fv) as [|[l r] rs] eqn:R; [contradiction|].
    destruct (proj1 (Hv l)) as (gg & s & _ & A & B & C & _); [left; reflexivity|]. assert (In s (f_cols fv)) as J by (apply Cv; auto). rewrite X in J. destruct J. }
  assert (Xa : frame_empty fa = true <-> f_rows fa = []) by (apply frame_empty_rows, Ca).
  assert (Xg : (match g with [] => true | _ => false end) = true <-> g = []) by (destruct g; split; congruence).
  assert (Q : forallb (fun e => e) [frame_empty fb; frame_empty fv; frame_empty fa; match g with [] => true | _ => false end] = true <->
    f_rows fb = [] /\ f_rows fv = [] /\ f_rows fa = [] /\ g = []).
  { cbn [forallb]. rewrite !andb_true_iff, Xb, Xv, Xa, Xg. tauto. }
  assert (P : f_rows fb = [] /\ f_rows fv = [] /\ f_rows fa = [] /\ g = [] -> ~ reported o n).
  { rewrite !rows_nil. intros (A & B & C & D) [(x & X)|[(x & s & X)|[(x & c1 & c2 & X)|(x & c & k & d1 & d2 & X)]]].
    - apply (A (Some x)), Hb. exists x. tauto.
    - apply (B (Some x)), Hv. exists x, s. tauto.
    - apply (C (Some x)), Ha. exists x, c1, c2. tauto.
    - assert (In (Some x) g) as J by (apply Hg; exists x, c, k, d1, d2; tauto). rewrite D in J. destruct J. }
  assert (R : forallb (fun e => e) [frame_empty fb; frame_empty fv; frame_empty fa; match g with [] => true | _ => false end] = false -> reported o n).
  { intros F. destruct (f_rows fb) as [|[l r] rs] eqn:E1.
    - destruct (f_rows fv) as [|[l r] rs] eqn:E2.
      + destruct (f_rows fa) as [|[l r] rs] eqn:E3.
        * destruct g as [|l g']; [|].
          -- exfalso. assert (false = true) as Y; [|discriminate Y]. rewrite <- F. apply Q. tauto.
          -- right. right. right. destruct (proj1 (Hg l)) as (x & c & k & d1 & d2 & _ & X); [left; reflexivity|]. exists x, c, k, d1, d2. exact X.
        * right. right. left. destruct (proj1 (Ha l)) as (x & c1 & c2 & _ & X); [left; reflexivity|]. exists x, c1, c2. exact X.
      + right. left. destruct (proj1 (Hv l)) as (x & s & _ & X); [left; reflexivity|]. exists x, s. exact X.
    - left. destruct (proj1 (Hb l)) as (x & _ & X); [left; reflexivity|]. exists x. exact X. }
  split; [|exact R]. split; [intros H; apply P, Q, H|]. intros H. destruct (forallb _ _) eqn:F; [reflexivity|]. exfalso. apply H, R. reflexivity.
Qed.

(** ** Saving *)
Definition good_pair (tmp : dir) (b : string) : Prop :=
  exists o n, sget tmp (b ++ ".json") = Some (Pair o n) /\ mesh_ok o /\ mesh_ok n /\ with_ids n.
Lemma save_one_json : forall tmp out b, stem b -> good_pair tmp b ->
  exists tmp' out', save_one (tmp, out) (b ++ ".json") = Ok (tmp', out') /\
    (forall o n, sget tmp (b ++ ".json") = Some (Pair o n) -> (reported o n /\ kept b tmp out tmp' out') \/ (~ reported o n /\ dropped b out tmp' out')) /\
    (forall f, f <> b ++ ".json" -> f <> b ++ ".svg" -> sget tmp' f = sget tmp f /\ sget out' f = sget out f).
Proof.
  intros tmp out b S (o & n & E & O & N & W). unfold save_one. rewrite (proj2 (splitext_json (b ++ ".json") b) (conj eq_refl S)).
  change (String.eqb ".json" ".json") with true. cbn [negb]. unfold extract_test_meshes. rewrite E. cbn [bind fst snd].
  destruct (compare_reports o n O N W) as (es & -> & T & F). cbn [bind].
  assert (JS : String.eqb (b ++ ".json") (b ++ ".svg") = false) by (apply String.eqb_neq; intros X; exact (svg_json b b (eq_sym X))).
  assert (SJ : String.eqb (b ++ ".svg") (b ++ ".json") = false) by (apply String.eqb_neq; apply svg_json).
  destruct (forallb (fun e => e) es).
  - do 2 eexists. split; [reflexivity|]. split.
    + intros o' n' E'. injection E' as <- <-. right. split; [apply T; reflexivity|]. unfold dropped.
      rewrite !sget_removed, !String.eqb_refl, JS. auto.
    + intros f Nj Ns. apply String.eqb_neq in Nj, Ns. rewrite !sget_removed, Nj, Ns. auto.
  - do 2 eexists. split; [reflexivity|]. split.
    + intros o' n' E'. injection E' as <- <-. left. split; [apply F; reflexivity|]. unfold kept. rewrite E.
      split; [reflexivity|]. destruct (sget tmp (b ++ ".svg")) as [p|]; rewrite ?sget_sset, ?String.eqb_refl, ?JS, ?SJ; auto.
    + intros f Nj Ns. apply String.eqb_neq in Nj, Ns. split; [reflexivity|].
      destruct (sget tmp (b ++ ".svg")) as [p|]; rewrite ?sget_sset, ?Nj, ?Ns; reflexivity.
Qed.
Lemma save_one_skip : forall tmp out f, (forall b, stem b -> f <> b ++ ".json") -> save_one (tmp, out) f = Ok (tmp, out).
Proof.
  intros tmp out f H. unfold save_one. destruct (splitext f) as [b e] eqn:E. destruct (String.eqb_spec e ".json") as [->|N]; [|reflexivity].
  apply splitext_json in E as (-> & S). exfalso. exact (H b S eq_refl).
Qed.
Lemma name_dec : forall f, (exists b, stem b /\ f = b ++ ".json") \/ (forall b, stem b -> f <> b ++ ".json").
Proof.
  intros f. destruct (splitext f) as [b e] eqn:E. destruct (String.eqb_spec e ".json") as [->|N].
  - left. apply splitext_json in E as (-> & S). exists b. auto.
  - right. intros b' S X. apply N. pose proof (proj2 (splitext_json f b') (conj X S)). congruence.
Qed.
Theorem saved : forall listing tmp out, NoDup listing -> (forall b, stem b -> In (b ++ ".json") listing -> good_pair tmp b) ->
  exists tmp' out', foldM save_one (tmp, out) listing = Ok (tmp', out') /\
    (forall b o n, stem b -> In (b ++ ".json") listing -> sget tmp (b ++ ".json") = Some (Pair o n) ->
       (reported o n /\ kept b tmp out tmp' out') \/ (~ reported o n /\ dropped b out tmp' out')) /\
    (forall f, (forall b, stem b -> In (b ++ ".json") listing -> f <> b ++ ".json" /\ f <> b ++ ".svg") -> sget tmp' f = sget tmp f /\ sget out' f = sget out f).
Proof.
  induction listing as [|f l IH]; intros tmp out ND G.
  - exists tmp, out. split; [reflexivity|]. split; [intros b o n _ []|]. auto.
  - inversion ND as [|? ? Nf ND']; subst. cbn [foldM]. destruct (name_dec f) as [(b & S & ->)|H].
    + destruct (save_one_json tmp out b S (G b S (or_introl eq_refl))) as (t1 & o1 & -> & K & U). cbn [bind].
      assert (Ot : forall b', stem b' -> In (b' ++ ".json") l -> b' ++ ".json" <> b ++ ".json" /\ b' ++ ".json" <> b ++ ".svg" /\ b' ++ ".svg" <> b ++ ".json" /\ b' ++ ".svg" <> b ++ ".svg").
      { intros b' _ I. assert (b' <> b) as D by (intros ->; contradiction).
        split; [intros X; apply D, (app_inj_r _ _ _ X)|]. split; [intros X; exact (svg_json b b' (eq_sym X))|]. split; [apply svg_json|]. intros X; apply D, (app_inj_r _ _ _ X). }
      destruct (IH t1 o1 ND') as (t2 & o2 & E & K2 & U2).
      { intros b' S' I. destruct (Ot b' S' I) as (D1 & D2 & _). destruct (G b' S' (or_intror I)) as (o & n & E & R). exists o, n.
        split; [|exact R]. rewrite <- E. apply (U (b' ++ ".json") D1 D2). }
      exists t2, o2. split; [exact E|]. split.
      * intros b' o n S' [X|I] E'.
        -- apply app_inj_r in X. subst b'. assert (Y : forall f, f = b ++ ".json" \/ f = b ++ ".svg" -> sget t2 f = sget t1 f /\ sget o2 f = sget o1 f).
           { intros f Hf. apply U2. intros b' S1 I1. destruct (Ot b' S1 I1) as (D1 & D2 & D3 & D4). destruct Hf as [-> | ->]; split; congruence. }
           destruct (Y (b ++ ".json")) as (Y1 & Y2); [auto|]. destruct (Y (b ++ ".svg")) as (Y3 & Y4); [auto|].
           unfold kept, dropped. rewrite Y1, Y2, Y3, Y4. exact (K o n E').
        -- destruct (Ot b' S' I) as (D1 & D2 & D3 & D4). destruct (U _ D1 D2) as (V1 & V2). destruct (U _ D3 D4) as (V3 & V4).
           rewrite <- V1 in E'. destruct (K2 b' o n S' I E') as [(R & K')|(R & K')]; [left|right]; (split; [exact R|]);
             unfold kept, dropped in *; rewrite ?V1, ?V2, ?V3, ?V4 in K'; exact K'.
      * intros f Hf. destruct (Hf b S (or_introl eq_refl)) as (D1 & D2). destruct (U f D1 D2) as (<- & <-).
        apply U2. intros b' S' I. apply Hf; [exact S'|right; exact I].
    + rewrite save_one_skip by exact H. cbn [bind]. destruct (IH tmp out ND') as (t2 & o2 & E & K2 & U2); [intros b S I; apply G; [exact S|right; exact I]|].
      exists t2, o2. split; [exact E|]. split.
      * intros b o n S [X|I] E'; [exfalso; exact (H b S X)|]. exact (K2 b o n S I E').
      * intros g Hg. apply U2. intros b S I. apply Hg; [exact S|right; exact I].
Qed.

(** Proofs about the test automation. *)
From Verif Require Import Base Cell PyStr Automate AutomateSpec StrLib.
Open Scope string_scope.

(** ** Occurrences *)
Lemma cut_within sub s : contains sub s = true <-> within sub s.
Proof.
  unfold contains. split.
  - destruct (cut sub s) as [[a b]|] eqn:E; [|discriminate]. intros _. exists a, b. apply cut_some, E.
  - intros (a & b & ->). induction a as [|c a IH].
    + cbn [append]. assert (H : cut sub (sub ++ b) = Some ("", b)).
      { destruct (sub ++ b) as [|d r] eqn:E; unfold cut; fold cut; rewrite <- E, strip_prefix_app; reflexivity. }
      rewrite H. reflexivity.
    + change (String c a ++ sub ++ b) with (String c (a ++ sub ++ b)). cbn [cut]. destruct (strip_prefix sub _); [reflexivity|].
      destruct (cut sub (a ++ sub ++ b)) as [[]|]; [reflexivity|discriminate].
Qed.
Lemma not_within sub s : contains sub s = false <-> ~ within sub s.
Proof. rewrite <- cut_within. destruct (contains sub s); split; congruence. Qed.
Lemma free_within c s : free c s <-> ~ within (String c "") s.
Proof.
  unfold free. split.
  - intros F (a & b & ->). apply F. rewrite chars_app, in_app_iff. right. left. reflexivity.
  - intros N I. apply N. induction s as [|d s IH]; [destruct I|]. destruct I as [-> |I].
    + exists "", s. reflexivity.
    + destruct (IH (fun W => N (match W with ex_intro _ a (ex_intro _ b E) => ex_intro _ (String d a) (ex_intro _ b (f_equal (String d) E)) end)) I) as (a & b & ->).
      exists (String d a), b. reflexivity.
Qed.

(** ** Replacing *)
Lemma split_nonempty c sep s : exists x l, split (String c sep) s = x :: l.
Proof. rewrite split_cut. destruct (cut _ s) as [[a b]|]; eauto. Qed.
Lemma split_prefix c sep w t : free c w -> exists x l, split (String c sep) t = x :: l /\ split (String c sep) (w ++ t) = (w ++ x) :: l.
Proof.
  intros F. rewrite (split_cut c sep t), (split_cut c sep (w ++ t)), (cut_skip c sep w t F).
  destruct (cut (String c sep) t) as [[a b]|]; eauto.
Qed.
Lemma join_prefix sep w x l : join sep ((w ++ x) :: l) = w ++ join sep (x :: l).
Proof. destruct l; [reflexivity|]. rewrite !join_cons, app_assoc_s. reflexivity. Qed.
Lemma replace_app c sep new w t : free c w -> replace (String c sep) new (w ++ t) = w ++ replace (String c sep) new t.
Proof. intros F. unfold replace. destruct (split_prefix c sep w t F) as (x & l & -> & ->). apply join_prefix. Qed.
Lemma replace_here c sep new t : replace (String c sep) new (String c sep ++ t) = new ++ replace (String c sep) new t.
Proof.
  unfold replace. pose proof (split_first c sep "" t (free_nil c)) as E. change ("" ++ String c sep ++ t) with (String c sep ++ t) in E. rewrite E.
  destruct (split_nonempty c sep t) as (x & l & ->). rewrite join_cons. reflexivity.
Qed.
Lemma replace_free c sep new w : free c w -> replace (String c sep) new w = w.
Proof. intros F. unfold replace. rewrite split_none by exact F. reflexivity. Qed.

(** ** Words *)
Definition spaceless (w : string) : Prop := forall c, In c (list_ascii_of_string w) -> is_space c = false.
Lemma words_space s : words (" " ++ s) = words s.
Proof. reflexivity. Qed.
Lemma words_word w s : w <> "" -> spaceless w -> words (w ++ " " ++ s) = w :: words s.
Proof.
  intros N S. induction w as [|c w IH]; [contradiction|]. cbn [append words]. rewrite (S c) by (left; reflexivity).
  destruct w as [|d w]; [reflexivity|]. cbn [append]. rewrite (S d) by (right; left; reflexivity).
  cbn [append] in IH. rewrite IH; [reflexivity|discriminate|]. intros x I. apply S. right. exact I.
Qed.
Lemma words_last w : w <> "" -> spaceless w -> words w = [w].
Proof.
  intros N S. induction w as [|c w IH]; [contradiction|]. cbn [words]. rewrite (S c) by (left; reflexivity).
  destruct w as [|d w]; [reflexivity|]. rewrite (S d) by (right; left; reflexivity).
  rewrite IH; [reflexivity|discriminate|]. intros x I. apply S. right. exact I.
Qed.
Lemma words_then w t : w <> "" -> spaceless w -> (t = "" \/ exists r, t = " " ++ r) -> exists ws, words (w ++ t) = w :: ws.
Proof. intros N S [->|(r & ->)]; [rewrite app_nil_s, words_last by auto; eauto|rewrite words_word by auto; eauto]. Qed.

Lemma word_free w : word w -> free ":" w /\ free "[" w /\ free "]" w /\ spaceless w /\ w <> "".
Proof.
  intros (N & H). unfold free, spaceless. repeat split; auto; try (intros I; apply H in I; tauto). intros c I. apply H in I. tauto.
Qed.
Lemma status_word s : In s ["PASSED"; "FAILED"; "ERROR"] -> word s.
Proof. intros [<-|[<-|[<-|[]]]]; (split; [discriminate|]; intros c I; cbn in I; repeat (destruct I as [<-|I]; [repeat split; reflexivity || discriminate|]); destruct I). Qed.
Lemma basename_plain f : free "/" f -> basename f = f.
Proof. intros F. unfold basename. rewrite split_none by exact F. reflexivity. Qed.

(** The three replacements together. *)
Definition clean (line : string) : string := replace "]" " " (replace "[" " " (replace "::" " " line)).
Lemma clean_word w t : word w -> clean (w ++ t) = w ++ clean t.
Proof. intros W. apply word_free in W. destruct W as (A & B & C & _). unfold clean. rewrite !replace_app by auto. reflexivity. Qed.
Lemma free_space c : c <> " "%char -> free c " ".
Proof. intros N [E|[]]. congruence. Qed.
Lemma clean_space t : clean (" " ++ t) = " " ++ clean t.
Proof. unfold clean. rewrite !replace_app by (apply free_space; discriminate). reflexivity. Qed.
Lemma clean_colons t : clean ("::" ++ t) = " " ++ clean t.
Proof. unfold clean. rewrite (replace_here ":" ":"), !replace_app by (apply free_space; discriminate). reflexivity. Qed.
Lemma free_one c d : c <> d -> free c (String d "").
Proof. intros N [E|[]]. congruence. Qed.
Lemma clean_open t : clean ("[" ++ t) = " " ++ clean t.
Proof.
  unfold clean. rewrite (replace_app ":" ":" " " "[") by (apply free_one; discriminate).
  rewrite (replace_here "[" ""), replace_app by (apply free_space; discriminate). reflexivity.
Qed.
Lemma clean_close t : clean ("]" ++ t) = " " ++ clean t.
Proof.
  unfold clean. rewrite (replace_app ":" ":" " " "]"), (replace_app "[" "" " " "]") by (apply free_one; discriminate).
  rewrite (replace_here "]" ""). reflexivity.
Qed.
Lemma clean_nil : clean "" = "".
Proof. reflexivity. Qed.

Lemma line_words o : good_outcome o -> exists a b c d ws, words (clean (line_of o)) = a :: b :: c :: d :: ws /\ info_of o = mkTI b (basename c) d a.
Proof.
  intros (G & S & _). apply status_word in S. destruct (word_free _ S) as (_ & _ & _ & S1 & S2). destruct o as [s p t r rest|s p c m rest]; cbn [status_of] in *.
  - destruct G as (P & T & F & R). destruct (word_free _ P) as (_ & _ & _ & P1 & P2). destruct (word_free _ T) as (_ & _ & _ & T1 & T2). destruct (word_free _ R) as (_ & _ & _ & R1 & R2).
    exists s, p, t, r, (words (clean rest)). split.
    + cbn [line_of]. rewrite clean_word, clean_space, clean_word, clean_colons, clean_word, clean_open, clean_word, clean_close by assumption.
      rewrite !words_word by assumption. reflexivity.
    + cbn [info_of]. rewrite basename_plain by (apply free_within, F). reflexivity.
  - destruct G as (P & C & F & M & Rt). destruct (word_free _ P) as (_ & _ & _ & P1 & P2). destruct (word_free _ C) as (_ & _ & _ & C1 & C2). destruct (word_free _ M) as (_ & _ & _ & M1 & M2).
    destruct (words_then m (clean rest) M2 M1) as (ws & Ew).
    { destruct Rt as [->|(r & [-> | ->])]; [left; reflexivity|right; exists (clean r); apply clean_space|right; exists (clean r); apply clean_open]. }
    exists s, p, c, m, ws. split.
    + cbn [line_of]. rewrite clean_word, clean_space, clean_word, clean_colons, clean_word, clean_colons, clean_word by assumption.
      rewrite !words_word by assumption. rewrite Ew. reflexivity.
    + cbn [info_of]. rewrite basename_plain by (apply free_within, F). reflexivity.
Qed.
Lemma line_parsed o : good_outcome o -> parse_line (line_of o) = Ok (having "PASSED" [o], having "FAILED" [o], having "ERROR" [o]).
Proof.
  intros G. destruct (line_words o G) as (a & b & c & d & ws & E & I). unfold parse_line. fold (clean (line_of o)). rewrite E, <- I.
  assert (Ea : status_of o = a) by (destruct o; cbn in I; injection I as _ _ _ ->; reflexivity).
  unfold having. cbn [filter]. rewrite Ea. destruct G as (_ & S & _). rewrite Ea in S.
  destruct S as [<-|[<-|[<-|[]]]]; reflexivity.
Qed.
Lemma line_colons o : contains "::" (line_of o) = true.
Proof.
  apply cut_within. destruct o as [s p t r rest|s p c m rest]; cbn [line_of].
  - exists (s ++ " " ++ p), (t ++ "[" ++ r ++ "]" ++ rest). rewrite !app_assoc_s. reflexivity.
  - exists (s ++ " " ++ p), (c ++ "::" ++ m ++ rest). rewrite !app_assoc_s. reflexivity.
Qed.

(** ** The whole output *)
Lemma from_summary_skip before lines : (forall l, In l before -> ~ within "short test summary info" l) -> from_summary (before ++ lines)%list = from_summary lines.
Proof.
  intros H. induction before as [|l b IH]; [reflexivity|]. cbn [app from_summary]. rewrite (proj2 (not_within _ l)) by (apply H; left; reflexivity).
  apply IH. intros x I. apply H. right. exact I.
Qed.
Lemma more_nil r : more_results r no_results = r.
Proof. destruct r as [[a b] c]. unfold more_results. cbn. rewrite !app_nil_r. reflexivity. Qed.
Definition by_status (os : list outcome) : results := (having "PASSED" os, having "FAILED" os, having "ERROR" os).
Lemma having_app s a b : having s (a ++ b) = (having s a ++ having s b)%list.
Proof. unfold having. rewrite filter_app, map_app. reflexivity. Qed.
Lemma by_status_app a b : by_status (a ++ b) = more_results (by_status a) (by_status b).
Proof. unfold by_status, more_results. cbn [fst snd]. rewrite !having_app. reflexivity. Qed.
Definition step (acc : results) (line : string) : res results :=
  if contains "::" line then r <- parse_line line ;; Ok (more_results acc r) else Ok acc.
Lemma fold_quiet acc lines : (forall l, In l lines -> ~ within "::" l) -> foldM step acc lines = Ok acc.
Proof.
  intros H. induction lines as [|l lines IH]; [reflexivity|]. cbn [foldM]. unfold step at 1. rewrite (proj2 (not_within _ l)) by (apply H; left; reflexivity).
  cbn [bind]. apply IH. intros x I. apply H. right. exact I.
Qed.
Lemma foldM_app {A B} (f : A -> B -> res A) l1 l2 a : foldM f a (l1 ++ l2)%list = (x <- foldM f a l1 ;; foldM f x l2).
Proof. revert a. induction l1 as [|b l1 IH]; intros a; [reflexivity|]. cbn [app foldM]. destruct (f a b); cbn [bind]; [apply IH|reflexivity]. Qed.
Lemma fold_outcomes os : forall acc, (forall o, In o os -> good_outcome o) -> foldM step acc (map line_of os) = Ok (more_results acc (by_status os)).
Proof.
  induction os as [|o os IH]; intros acc G; [cbn [map foldM]; unfold by_status; rewrite more_nil; reflexivity|].
  cbn [map foldM]. unfold step at 1. rewrite line_colons, line_parsed by (apply G; left; reflexivity). cbn [bind]. rewrite IH by (intros; apply G; right; auto).
  change (o :: os) with ([o] ++ os)%list. rewrite by_status_app. destruct acc as [[a b] c]. unfold more_results. cbn [fst snd]. rewrite !app_assoc. reflexivity.
Qed.
Theorem parsed stdout os : output stdout os -> (forall o, In o os -> good_outcome o) -> parse_pytest_stdout stdout = Ok (by_status os).
Proof.
  intros (before & title & after & -> & B & T1 & T2 & T3 & A) G. unfold parse_pytest_stdout, newline.
  rewrite split_join; [|destruct before; discriminate|].
  - rewrite from_summary_skip by (intros l I; apply B, I). cbn [from_summary]. rewrite (proj2 (cut_within _ title) T2). cbn [bind].
    change (foldM step no_results (title :: map line_of os ++ after) = Ok (by_status os)).
    change (title :: map line_of os ++ after)%list with ([title] ++ map line_of os ++ after)%list.
    rewrite foldM_app, (fold_quiet no_results [title]) by (intros l [<-|[]]; exact T3). cbn [bind].
    rewrite foldM_app, fold_outcomes by exact G. cbn [bind]. rewrite fold_quiet by (intros l I; apply A, I). reflexivity.
  - intros l I. apply free_within. fold newline. apply in_app_iff in I. destruct I as [I|[<-|I]]; [apply B, I|exact T1|].
    apply in_app_iff in I. destruct I as [I|I]; [|apply A, I]. apply in_map_iff in I. destruct I as (o & <- & I). apply G, I.
Qed.

(** ** Changed files *)
Lemma content_spec a b : content_eqb a b = true <-> a = b.
Proof. destruct a, b; cbn; try (split; congruence). rewrite String.eqb_eq. split; congruence. Qed.
Lemma concat_lines l : (forall f, In f l -> good_name f) ->
  filter (fun f => negb (String.eqb f "")) (split newline (String.concat "" (map (fun p => p ++ newline) l))) = l.
Proof.
  intros G. induction l as [|f l IH]; [reflexivity|].
  assert (E : String.concat "" (map (fun p => p ++ newline) (f :: l)) = f ++ newline ++ String.concat "" (map (fun p => p ++ newline) l)).
  { cbn [map]. destruct l as [|g l]; [cbn [map String.concat]; rewrite app_nil_s; reflexivity|]. cbn [map String.concat]. rewrite app_assoc_s. reflexivity. }
  rewrite E. destruct (G f (or_introl eq_refl)) as (N & F). apply free_within in F. unfold newline. rewrite split_first by exact F. cbn [filter].
  rewrite (proj2 (String.eqb_neq f "") N). cbn [negb]. f_equal. apply IH. intros g I. apply G. right. exact I.
Qed.
Lemma diff_listed a b f : good_tree a -> good_tree b ->
  (In f (filter (fun f => negb (String.eqb f "")) (split newline (git_diff a b))) <-> differs a b f).
Proof.
  intros Ga Gb. unfold git_diff. rewrite concat_lines.
  - rewrite filter_In, nodup_In, in_app_iff, negb_true_iff. unfold differs. split.
    + intros (_ & N) E. apply content_spec in E. congruence.
    + intros N. split; [|destruct (content_eqb _ _) eqn:C; [apply content_spec in C; contradiction|reflexivity]].
      destruct (in_dec string_dec f (map fst a)) as [I|I]; [auto|]. destruct (in_dec string_dec f (map fst b)) as [J|J]; [auto|].
      exfalso. apply N. assert (X : forall t : tree, ~ In f (map fst t) -> sget t f = None).
      { intros t H. destruct (sget t f) eqn:S; [|reflexivity]. exfalso. apply H. clear - S. induction t as [|[k v] t IHt]; [discriminate|]. cbn in S |- *.
        destruct (String.eqb_spec f k) as [->|]; [left; reflexivity|right; auto]. }
      rewrite !X by assumption. reflexivity.
  - intros g I. apply filter_In in I. destruct I as (I & _). apply nodup_In, in_app_iff in I. destruct I as [I|I]; [apply Ga|apply Gb]; exact I.
Qed.

(** ** Registered tests *)
Lemma basename_exists n : forall s, (String.length s <= n)%nat -> ~ within "/" (basename s) /\ (s = basename s \/ exists dir, s = dir ++ "/" ++ basename s).
Proof.
  induction n as [|n IH]; intros s L.
  - destruct s; [|cbn in L; lia]. split; [|left; reflexivity]. intros (a & b & E). destruct a; discriminate.
  - unfold basename. rewrite split_cut. destruct (cut "/" s) as [[a b]|] eqn:C.
    + assert (Lb := cut_length _ _ _ _ _ C). apply cut_some in C. destruct (IH b ltac:(lia)) as (N & H). unfold basename in N, H.
      destruct (split_nonempty "/" "" b) as (x & l & Es). rewrite Es in *. change (last (a :: x :: l) "") with (last (x :: l) "").
      split; [exact N|]. right. destruct H as [H|(dir & H)].
      * exists a. rewrite C at 1. f_equal. f_equal. exact H.
      * exists (a ++ "/" ++ dir). rewrite C at 1. rewrite H at 1. rewrite !app_assoc_s. reflexivity.
    + cbn [last]. split; [|left; reflexivity]. apply not_within. unfold contains. rewrite C. reflexivity.
Qed.
Lemma split_char c d s : exists x l, split (String c "") s = x :: l /\
  split (String c "") (String d s) = if Ascii.eqb d c then "" :: x :: l else String d x :: l.
Proof.
  destruct (Ascii.eqb_spec d c) as [->|N].
  - destruct (split_nonempty c "" s) as (x & l & E). exists x, l. split; [exact E|]. rewrite <- E. exact (split_first c "" "" s (free_nil c)).
  - destruct (split_prefix c "" (String d "") s (free_one c d (fun e => N (eq_sym e)))) as (x & l & E1 & E2). exists x, l. split; [exact E1|exact E2].
Qed.
Lemma split_dir dir f : free "/" f -> exists x l, split "/" (dir ++ "/" ++ f) = x :: (l ++ [f])%list.
Proof.
  intros F. induction dir as [|d dir (x & l & IH)].
  - exists "", []. pose proof (split_first "/" "" "" f (free_nil _)) as E. rewrite (split_none _ _ f F) in E. exact E.
  - change (String d dir ++ "/" ++ f) with (String d (dir ++ "/" ++ f)). destruct (split_char "/" d (dir ++ "/" ++ f)) as (y & k & E & ->).
    rewrite IH in E. injection E as <- <-. destruct (Ascii.eqb d "/"); [exists "", (x :: l)|exists (String d x), l]; reflexivity.
Qed.
Lemma named_basename path f : named path f <-> f = basename path.
Proof.
  split.
  - intros (N & H). apply free_within in N. destruct H as [->|(dir & ->)]; [rewrite basename_plain by exact N; reflexivity|].
    unfold basename. destruct (split_dir dir f N) as (x & l & ->). change (x :: l ++ [f])%list with ((x :: l) ++ [f])%list. rewrite last_last. reflexivity.
  - intros ->. destruct (basename_exists _ path (le_n _)) as (N & H). split; assumption.
Qed.
Lemma relevant_tests f table test : In test (get_relevant_tests f table) <-> exists tests, In (basename f, tests) table /\ In test tests.
Proof.
  unfold get_relevant_tests. rewrite in_concat. split.
  - intros (tests & I & J). apply in_map_iff in I. destruct I as ([k v] & <- & I). apply filter_In in I. destruct I as (I & E). cbn [fst] in E.
    apply String.eqb_eq in E. subst k. eauto.
  - intros (tests & I & J). exists tests. split; [|exact J]. apply in_map_iff. exists (basename f, tests). split; [reflexivity|]. apply filter_In.
    split; [exact I|]. cbn. apply String.eqb_refl.
Qed.
Lemma run_exactly listed files table : lists_sets listed -> NoDup (tests_to_run listed files table) /\
  forall test, In test (tests_to_run listed files table) <-> registered table files test.
Proof.
  intros L. unfold tests_to_run. destruct (L (List.concat (map (fun f => get_relevant_tests f table) files))) as (N & H). split; [exact N|].
  intros test. rewrite H, in_concat. split.
  - intros (ts & I & J). apply in_map_iff in I. destruct I as (f & <- & I). apply relevant_tests in J. destruct J as (tests & K & J).
    exists f, (basename f), tests. split; [exact I|]. split; [apply named_basename; reflexivity|]. auto.
  - intros (path & f & tests & I & Nm & K & J). apply named_basename in Nm. subst f. exists (get_relevant_tests path table). split; [apply in_map_iff; eauto|].
    apply relevant_tests. eauto.
Qed.

(** ** Running *)
Definition all_outcomes (told : string -> list outcome) (dir : string) (tests : list string) : list outcome :=
  List.concat (map (fun t => told (path_join dir t)) tests).
Lemma run_results listed pytest told files dir table acc :
  (forall t, In t (tests_to_run listed files table) -> output (pytest (path_join dir t)) (told (path_join dir t)) /\ forall o, In o (told (path_join dir t)) -> good_outcome o) ->
  run_tests listed pytest files dir table acc = Ok (more_results acc (by_status (all_outcomes told dir (tests_to_run listed files table)))).
Proof.
  unfold run_tests, all_outcomes. generalize (tests_to_run listed files table) as ts. intros ts. revert acc. induction ts as [|t ts IH]; intros acc H.
  - cbn [foldM map List.concat]. change (by_status []) with no_results. rewrite more_nil. reflexivity.
  - cbn [foldM]. destruct (H t (or_introl eq_refl)) as (O & G). rewrite (parsed _ _ O G). cbn [bind]. rewrite IH by (intros; apply H; right; auto).
    cbn [map List.concat]. rewrite by_status_app. destruct acc as [[a b] c]. unfold more_results. cbn [fst snd]. rewrite !app_assoc. reflexivity.
Qed.
(** Counting. *)
Lemma count_map {A} (f : A -> string) x l : count_occ string_dec (map f l) x = List.length (filter (fun a => String.eqb (f a) x) l).
Proof.
  induction l as [|a l IH]; [reflexivity|]. cbn [map count_occ filter]. destruct (string_dec (f a) x) as [->|N].
  - rewrite String.eqb_refl. cbn [List.length]. rewrite IH. reflexivity.
  - rewrite (proj2 (String.eqb_neq _ _) N). exact IH.
Qed.

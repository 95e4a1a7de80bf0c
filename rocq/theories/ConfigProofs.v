(** Proofs about configurations: what the validator accepts (C51) and that the
    grids of accepted configurations tile the region (C39). *)
From Coq Require Import Ascii String.
From Verif Require Import Base Geo Graph Cell Builder Spec MeshSpec GlobeSpec CrossSpec QLib CaseProofs SplitGeo Dict Rep SplitCore Stage BuilderSplit Invariant Grid Build Consequences GlobeProofs Cross CrossInv CrossBuild PyStr Dates DateSpec CalProofs DateProofs Config ConfigSpec.
Open Scope string_scope.
Open Scope Z_scope.

(** ** The schema *)
Lemma has_some o n : match sget (V:=json) o n with Some _ => true | None => false end = true <-> exists v, sget o n = Some v.
Proof. destruct (sget o n); split; eauto; intros; try discriminate. destruct H as (? & H). discriminate. Qed.
Lemma only_spec (o : sdict json) ks : forallb (fun kv => existsb (String.eqb (fst kv)) ks) o = true <-> only_keys o ks.
Proof.
  rewrite forallb_forall. unfold only_keys. split.
  - intros H k v I. apply H in I. apply existsb_exists in I as (x & I & E). apply String.eqb_eq in E. cbn in E. subst. auto.
  - intros H [k v] I. apply existsb_exists. exists k. cbn. split; [eauto|apply String.eqb_refl].
Qed.
Lemma type_number j : has_type TNumber j = true <-> exists q, number j q.
Proof.
  split.
  - destruct j; cbn; try discriminate; eexists; constructor.
  - intros (q & H). destruct H; reflexivity.
Qed.
Lemma type_string j : has_type TString j = true <-> exists s, j = JStr s.
Proof. split; [destruct j; cbn; try discriminate; eauto|intros (s & ->); reflexivity]. Qed.
Lemma type_object j : has_type TObject j = true <-> exists o, j = JObj o.
Proof. split; [destruct j; cbn; try discriminate; eauto|intros (s & ->); reflexivity]. Qed.
Lemma type_array j : has_type TArray j = true <-> exists o, j = JArr o.
Proof. split; [destruct j; cbn; try discriminate; eauto|intros (s & ->); reflexivity]. Qed.
Lemma type_integer j : has_type TInteger j = true <-> exists z, whole j z.
Proof.
  split.
  - destruct j; cbn; try discriminate; [eexists; constructor|].
    intros H. apply qeqb_true in H. eexists. constructor. exact H.
  - intros (q & H). destruct H as [|q z E]; [reflexivity|]. cbn. apply qeqb_true. rewrite E.
    rewrite (qfloor_eq _ z) by reflexivity. reflexivity.
Qed.
Lemma number_fun j q : number j q -> as_num j = Ok q.
Proof. intros []; reflexivity. Qed.

Ltac prop_at o k := let v := fresh "v" in let E := fresh "E" in destruct (sget o k) as [v|] eqn:E; [|discriminate || (exfalso; congruence)].

Lemma region_valid j : valid region_schema j = true <-> exists r s, j = JObj r /\ region_says r s.
Proof.
  split.
  - intros H. cbn [valid region_schema holds] in H.
    apply andb_prop in H as [T H]. apply type_object in T as (r & ->).
    apply andb_prop in H as [Rq H]. apply andb_prop in H as [H _]. apply andb_prop in H as [P O].
    cbn [forallb] in Rq. cbn [map fst] in O. apply only_spec in O.
    repeat match goal with H : (_ && _)%bool = true |- _ => apply andb_prop in H as [? ?] end.
    repeat match goal with H : match sget r ?n with Some _ => true | None => false end = true |- _ =>
      apply has_some in H; destruct H as (? & ?) end.
    repeat match goal with E : sget r ?n = Some ?v, H : context [sget r ?n] |- _ => rewrite E in H end.
    repeat match goal with H : (_ && true)%bool = true |- _ => rewrite andb_true_r in H end.
    repeat match goal with
      | H : has_type TNumber _ = true |- _ => apply type_number in H as (? & H)
      | H : has_type TString _ = true |- _ => apply type_string in H as (? & H); subst
      end.
    match goal with
    | E1 : sget r "lat_min" = Some ?v1, E2 : sget r "lat_max" = Some ?v2, E3 : sget r "long_min" = Some ?v3,
      E4 : sget r "long_max" = Some ?v4, E5 : sget r "start_time" = Some (JStr ?s1), E6 : sget r "end_time" = Some (JStr ?s2),
      E7 : sget r "cell_width" = Some ?v7, E8 : sget r "cell_height" = Some ?v8,
      H1 : number ?v1 ?q1, H2 : number ?v2 ?q2, H3 : number ?v3 ?q3, H4 : number ?v4 ?q4, H7 : number ?v7 ?q7, H8 : number ?v8 ?q8 |- _ =>
        exists r, (mkSettings q1 q2 q3 q4 s1 s2 q7 q8 0 0 []); split; [reflexivity|];
        unfold region_says, number_at, text_at; cbn [s_lat_min s_lat_max s_long_min s_long_max s_start s_end s_width s_height];
        repeat split; eauto
    end.
  - intros (r & s & -> & N1 & N2 & N3 & N4 & T1 & T2 & N5 & N6 & O).
    unfold text_at in *. repeat match goal with H : number_at _ _ _ |- _ => let v := fresh "v" in let E := fresh "E" in let N := fresh "N" in destruct H as (v & E & N) end.
    cbn [valid region_schema holds forallb map fst].
    repeat match goal with E : sget r ?n = Some _ |- _ => rewrite E end.
    rewrite (proj2 (only_spec _ _) O).
    repeat match goal with N : number ?v ?q |- context [has_type TNumber ?v] => rewrite (proj2 (type_number v) (ex_intro _ q N)) end.
    reflexivity.
Qed.

Lemma loader_valid j : valid dataloader_schema j = true <-> exists l, loader_says j l.
Proof.
  split.
  - intros H. cbn [valid dataloader_schema holds] in H.
    apply andb_prop in H as [T H]. apply type_object in T as (r & ->).
    apply andb_prop in H as [Rq H]. apply andb_prop in H as [H _]. apply andb_prop in H as [P O].
    cbn [forallb] in Rq. cbn [map fst] in O. apply only_spec in O.
    repeat match goal with H : (_ && _)%bool = true |- _ => apply andb_prop in H as [? ?] end.
    repeat match goal with H : match sget r ?n with Some _ => true | None => false end = true |- _ =>
      apply has_some in H; destruct H as (? & ?) end.
    repeat match goal with E : sget r ?n = Some ?v, H : context [sget r ?n] |- _ => rewrite E in H end.
    repeat match goal with H : (_ && true)%bool = true |- _ => rewrite andb_true_r in H end.
    repeat match goal with
      | H : has_type TObject _ = true |- _ => apply type_object in H as (? & H); subst
      | H : has_type TString _ = true |- _ => apply type_string in H as (? & H); subst
      end.
    match goal with
    | E1 : sget r "loader" = Some (JStr ?v1), E2 : sget r "params" = Some (JObj ?v2) |- _ =>
        exists (v1, v2); exists r; unfold text_at; cbn [fst snd]; repeat split; auto
    end.
  - intros ((n & p) & r & -> & N1 & N2 & O). unfold text_at in *. cbn [fst snd] in *.
    cbn [valid dataloader_schema holds forallb map fst]. rewrite N1, N2.
    rewrite (proj2 (only_spec _ _) O). reflexivity.
Qed.
Lemma loaders_valid d : forallb (valid dataloader_schema) d = true <-> exists ls, Forall2 loader_says d ls.
Proof.
  split.
  - induction d as [|j d IH]; intros H; [exists []; constructor|].
    cbn [forallb] in H. apply andb_prop in H as [H1 H2]. apply loader_valid in H1 as (l & L). destruct (IH H2) as (ls & F).
    exists (l :: ls). constructor; auto.
  - intros (ls & F). induction F; [reflexivity|]. cbn [forallb]. rewrite (proj2 (loader_valid x)) by eauto. auto.
Qed.
Lemma splitting_valid j : valid splitting_schema j = true <->
  exists p a b, j = JObj p /\ whole_at p "split_depth" a /\ whole_at p "minimum_datapoints" b /\ only_keys p ["split_depth"; "minimum_datapoints"].
Proof.
  split.
  - intros H. cbn [valid splitting_schema holds] in H.
    apply andb_prop in H as [T H]. apply type_object in T as (r & ->).
    apply andb_prop in H as [Rq H]. apply andb_prop in H as [H _]. apply andb_prop in H as [P O].
    cbn [forallb] in Rq. cbn [map fst] in O. apply only_spec in O.
    repeat match goal with H : (_ && _)%bool = true |- _ => apply andb_prop in H as [? ?] end.
    repeat match goal with H : match sget r ?n with Some _ => true | None => false end = true |- _ =>
      apply has_some in H; destruct H as (? & ?) end.
    repeat match goal with E : sget r ?n = Some ?v, H : context [sget r ?n] |- _ => rewrite E in H end.
    repeat match goal with H : (_ && true)%bool = true |- _ => rewrite andb_true_r in H end.
    repeat match goal with H : has_type TInteger _ = true |- _ => apply type_integer in H as (? & H) end.
    match goal with
    | E1 : sget r "split_depth" = Some ?v1, E2 : sget r "minimum_datapoints" = Some ?v2, H1 : whole ?v1 ?a, H2 : whole ?v2 ?b |- _ =>
        exists r, a, b; unfold whole_at; repeat split; eauto
    end.
  - intros (r & a & b & -> & (v & E & W) & (v' & E' & W') & O).
    cbn [valid splitting_schema holds forallb map fst]. rewrite E, E', (proj2 (only_spec _ _) O).
    rewrite (proj2 (type_integer v)), (proj2 (type_integer v')) by eauto. reflexivity.
Qed.

(** The schema accepts exactly the complete configurations. *)
Lemma mesh_valid j : valid mesh_schema j = true <-> exists s, says j s.
Proof.
  split.
  - intros H. unfold mesh_schema in H. cbn [valid holds] in H.
    apply andb_prop in H as [T H]. apply type_object in T as (o & ->).
    apply andb_prop in H as [Rq H]. apply andb_prop in H as [H _]. apply andb_prop in H as [P _].
    cbn [forallb] in Rq.
    destruct (sget o "region") as [vr|] eqn:Er; [|discriminate].
    destruct (sget o "data_sources") as [vd|] eqn:Ed; [|discriminate].
    destruct (sget o "splitting") as [vp|] eqn:Ep; [|discriminate].
    change (valid region_schema vr && ((has_type TArray vd && (match vd with JArr l => forallb (valid dataloader_schema) l | _ => true end && true)) && (valid splitting_schema vp && true)) = true)%bool in P.
    apply andb_prop in P as [P1 P]. apply andb_prop in P as [P2 P3]. rewrite andb_true_r in P3.
    apply andb_prop in P2 as [P2 P4]. rewrite andb_true_r in P4.
    apply region_valid in P1 as (r & s & -> & RS). apply type_array in P2 as (d & ->).
    apply loaders_valid in P4 as (ls & F). apply splitting_valid in P3 as (p & a & b & -> & A & B & O).
    exists (mkSettings (s_lat_min s) (s_lat_max s) (s_long_min s) (s_long_max s) (s_start s) (s_end s) (s_width s) (s_height s) a b ls).
    exists o, r, d, p. cbn [s_loaders s_depth s_points]. split; auto. split; auto. split; [exact RS|].
    repeat split; auto.
  - intros (s & o & r & d & p & -> & Er & RS & Ed & F & Ep & A & B & O).
    unfold mesh_schema. cbn [valid holds has_type forallb]. rewrite Er, Ed, Ep. cbn [andb has_type].
    change (valid region_schema (JObj r) && ((true && (forallb (valid dataloader_schema) d && true)) && (valid splitting_schema (JObj p) && true)) && true && true = true)%bool.
    rewrite (proj2 (region_valid (JObj r))) by eauto.
    rewrite (proj2 (loaders_valid d)) by eauto.
    rewrite (proj2 (splitting_valid (JObj p))) by eauto 10. reflexivity.
Qed.

(** ** Dates and cell sizes *)
Lemma drop_squeezed s t : squeezed s t <-> t = drop_char " " s.
Proof.
  split.
  - induction 1; cbn [drop_char]; auto.
    destruct (Ascii.eqb_spec " " c); [congruence|]. rewrite IHsqueezed. reflexivity.
  - intros ->. induction s as [|c s IH]; cbn [drop_char]; [constructor|].
    destruct (Ascii.eqb_spec " " c) as [<-|N]; constructor; auto.
Qed.
Lemma strip_prefix_iff p s r : strip_prefix p s = Some r <-> s = p ++ r.
Proof.
  revert s. induction p as [|a p IH]; intros s; cbn [strip_prefix append]; [split; congruence|].
  destruct s as [|b s]; [split; discriminate|]. destruct (Ascii.eqb_spec a b) as [<-|N].
  - rewrite IH. split; congruence.
  - split; [discriminate|]. congruence.
Qed.
Lemma digit_iff c : (match digit c with Some _ => true | None => false end) = true <-> is_digit c.
Proof.
  split.
  - destruct (digit c) eqn:E; [|discriminate]. apply digit_some in E. tauto.
  - intros H. apply is_digit_some in H as (x & -> & _). reflexivity.
Qed.
Lemma relative_iff s : match_relative (drop_char " " s) = true <->
  exists c d r, squeezed s ("TODAY" ++ String c (String d r)) /\ (c = "+"%char \/ c = ","%char \/ c = "-"%char) /\ is_digit d.
Proof.
  unfold match_relative. destruct (strip_prefix "TODAY" (drop_char " " s)) as [t|] eqn:E.
  - apply strip_prefix_iff in E. split.
    + destruct t as [|c [|d r]]; try discriminate. intros H. apply andb_prop in H as [H1 H2].
      exists c, d, r. split; [apply drop_squeezed; auto|]. split; [|apply digit_iff; auto].
      apply orb_prop in H1 as [H1|H1]; [apply orb_prop in H1 as [H1|H1]|]; apply Ascii.eqb_eq in H1; auto.
    + intros (c & d & r & Sq & Hc & Hd). apply drop_squeezed in Sq. rewrite E in Sq.
      cbn [append] in Sq. injection Sq as <-. apply digit_iff in Hd. rewrite Hd, andb_true_r.
      destruct Hc as [-> |[-> | ->]]; reflexivity.
  - split; [discriminate|]. intros (c & d & r & Sq & _). apply drop_squeezed in Sq. symmetry in Sq.
    apply strip_prefix_iff in Sq. congruence.
Qed.
Lemma time_iff s : assert_valid_time s = true <-> accepted_time s.
Proof.
  unfold assert_valid_time, accepted_time. rewrite !orb_true_iff, relative_iff, String.eqb_eq, fromiso_iff. tauto.
Qed.

Lemma cellsize_iff lo hi step : assert_valid_cellsize lo hi step = Ok tt <-> whole_steps lo hi step.
Proof.
  unfold assert_valid_cellsize, whole_steps. destruct (qeqb_spec step 0) as [E|E].
  - split; [discriminate|]. intros [H _]. contradiction.
  - destruct (qmod_360 (hi - lo)) as ([M1 M2] & k & K).
    assert (D : (qmod (qmod (hi - lo) 360 / step) 1 == 0)%Q <-> exists n : Z, (qmod (hi - lo) 360 == inject_Z n * step)%Q).
    { set (v := qmod (hi - lo) 360). assert (V : (v == v / step * step)%Q) by (field; auto). split.
      - intros H. exists (Qfloor (v / step / 1)). rewrite V at 1. unfold qmod in H.
        assert (X : (v / step == inject_Z (Qfloor (v / step / 1)))%Q) by lra. rewrite X at 1. reflexivity.
      - intros (n & N). assert (X : (v / step == inject_Z n)%Q) by (rewrite N; field; auto).
        unfold qmod. rewrite (qfloor_eq (v / step / 1) n); [lra|]. rewrite <- X. field. auto. }
    destruct (qeqb_spec (qmod (qmod (hi - lo) 360 / step) 1) 0) as [Z0|Z0]; split; try discriminate; auto.
    + intros _. split; auto. apply D in Z0 as (n & N). exists k, n. lra.
    + intros (_ & k' & n & H1 & H2 & H3). exfalso. apply Z0, D. exists n.
      assert (X : (inject_Z (k + - k') == inject_Z k - inject_Z k')%Q) by (rewrite inject_Z_plus, inject_Z_opp; lra).
      assert (H : k + - k' = 0) by (apply int_zero; lra). rewrite H in X. change (inject_Z 0) with 0%Q in X. lra.
Qed.

(** ** What a complete configuration yields when it is read *)
Lemma says_num cfg s k q : says cfg s -> (forall r, region_says r s -> number_at r k q) -> region_num cfg k = Ok q.
Proof.
  intros (o & r & d & p & -> & Er & RS & _) H. destruct (H r RS) as (v & E & N).
  unfold region_num, jget. rewrite Er. cbn [bind]. rewrite E. cbn [bind]. apply number_fun. auto.
Qed.
Lemma says_str cfg s k t : says cfg s -> (forall r, region_says r s -> text_at r k t) -> region_str cfg k = Ok t.
Proof.
  intros (o & r & d & p & -> & Er & RS & _) H. pose proof (H r RS) as E. unfold text_at in E.
  unfold region_str, jget. rewrite Er. cbn [bind]. rewrite E. reflexivity.
Qed.
Section Says.
Variables (cfg : json) (s : settings).
Hypothesis S : says cfg s.
Lemma says_lat_min : region_num cfg "lat_min" = Ok (s_lat_min s).
Proof. eapply says_num; eauto. intros r H. apply H. Qed.
Lemma says_lat_max : region_num cfg "lat_max" = Ok (s_lat_max s).
Proof. eapply says_num; eauto. intros r H. apply H. Qed.
Lemma says_long_min : region_num cfg "long_min" = Ok (s_long_min s).
Proof. eapply says_num; eauto. intros r H. apply H. Qed.
Lemma says_long_max : region_num cfg "long_max" = Ok (s_long_max s).
Proof. eapply says_num; eauto. intros r H. apply H. Qed.
Lemma says_width : region_num cfg "cell_width" = Ok (s_width s).
Proof. eapply says_num; eauto. intros r H. apply H. Qed.
Lemma says_height : region_num cfg "cell_height" = Ok (s_height s).
Proof. eapply says_num; eauto. intros r H. apply H. Qed.
Lemma says_start : region_str cfg "start_time" = Ok (s_start s).
Proof. eapply says_str; eauto. intros r H. apply H. Qed.
Lemma says_end : region_str cfg "end_time" = Ok (s_end s).
Proof. eapply says_str; eauto. intros r H. apply H. Qed.
End Says.

(** The validator, on a configuration given as a dictionary. *)
Definition acceptable (s : settings) : Prop :=
  accepted_time (s_start s) /\ accepted_time (s_end s) /\
  whole_steps (s_lat_min s) (s_lat_max s) (s_height s) /\
  whole_steps (s_long_min s) (s_long_max s) (s_width s).
Lemma validate_says files cfg s : says cfg s -> (validate_mesh_config files cfg = Ok tt <-> acceptable s).
Proof.
  intros Sy. pose proof (proj2 (mesh_valid cfg) (ex_intro _ s Sy)) as V.
  assert (J : flexi_json_input files cfg = Ok cfg) by (destruct Sy as (o & r & d & p & -> & _); reflexivity).
  unfold validate_mesh_config. rewrite J. cbn [bind]. rewrite V. cbn [negb].
  rewrite (says_start cfg s Sy), (says_end cfg s Sy), (says_lat_min cfg s Sy), (says_lat_max cfg s Sy),
    (says_long_min cfg s Sy), (says_long_max cfg s Sy), (says_width cfg s Sy), (says_height cfg s Sy). cbn [bind].
  unfold acceptable. rewrite <- !time_iff, <- !cellsize_iff.
  destruct (assert_valid_time (s_start s)); cbn [negb]; [|split; [discriminate|intros (? & _); discriminate]].
  destruct (assert_valid_time (s_end s)); cbn [negb]; [|split; [discriminate|intros (_ & ? & _); discriminate]].
  destruct (assert_valid_cellsize (s_lat_min s) (s_lat_max s) (s_height s)) as [[]|e]; cbn [bind];
    [|split; [discriminate|intros (_ & _ & ? & _); discriminate]].
  tauto.
Qed.
Theorem validator_accepts files cfg : validate_mesh_config files cfg = Ok tt <-> exists s, says cfg s /\ acceptable s.
Proof.
  split.
  - intros H. assert (V : exists s, says cfg s).
    { apply mesh_valid. unfold validate_mesh_config, flexi_json_input in H. destruct cfg; try discriminate.
      - destruct (files s) as [j|]; [|discriminate]. cbn [bind] in H. destruct (valid mesh_schema j); discriminate.
      - cbn [bind] in H. destruct (valid mesh_schema (JObj o)); [auto|discriminate]. }
    destruct V as (s & Sy). exists s. split; auto. apply (validate_says files cfg s); auto.
  - intros (s & Sy & A). apply (validate_says files cfg s); auto.
Qed.
(** The settings of a configuration are determined. *)
Lemma number_same j q q' : number j q -> number j q' -> q = q'.
Proof. intros [] H; inversion H; auto. Qed.
Lemma says_region_eq cfg s s' : says cfg s -> says cfg s' ->
  s_lat_min s = s_lat_min s' /\ s_lat_max s = s_lat_max s' /\ s_long_min s = s_long_min s' /\ s_long_max s = s_long_max s' /\
  s_start s = s_start s' /\ s_end s = s_end s' /\ s_width s = s_width s' /\ s_height s = s_height s'.
Proof.
  intros S1 S2.
  pose proof (says_lat_min _ _ S1) as A1. rewrite (says_lat_min _ _ S2) in A1.
  pose proof (says_lat_max _ _ S1) as A2. rewrite (says_lat_max _ _ S2) in A2.
  pose proof (says_long_min _ _ S1) as A3. rewrite (says_long_min _ _ S2) in A3.
  pose proof (says_long_max _ _ S1) as A4. rewrite (says_long_max _ _ S2) in A4.
  pose proof (says_start _ _ S1) as A5. rewrite (says_start _ _ S2) in A5.
  pose proof (says_end _ _ S1) as A6. rewrite (says_end _ _ S2) in A6.
  pose proof (says_width _ _ S1) as A7. rewrite (says_width _ _ S2) in A7.
  pose proof (says_height _ _ S1) as A8. rewrite (says_height _ _ S2) in A8.
  repeat split; congruence.
Qed.
(** A path is never accepted. *)
Lemma path_rejected files p : exists e, validate_mesh_config files (JStr p) = Err e /\
  (forall j, files p = Some j -> (exists s, says j s) -> e = TypeError).
Proof.
  unfold validate_mesh_config, flexi_json_input. destruct (files p) as [j|] eqn:E; cbn [bind].
  - destruct (valid mesh_schema j) eqn:V; cbn [negb].
    + exists TypeError. split; [reflexivity|]. auto.
    + exists ValidationError. split; [reflexivity|]. intros j' [= <-] X. apply mesh_valid in X. congruence.
  - exists FileNotFoundError. split; [reflexivity|]. intros; discriminate.
Qed.

(** ** The boundary of a configuration *)
Lemma from_json_says pad now cfg s b : says cfg s -> from_json pad now cfg = Ok b ->
  lat_min b = s_lat_min s /\ lat_max b = s_lat_max s /\ long_min b = s_long_min s /\ long_max b = s_long_max s /\
  (s_lat_min s <= s_lat_max s)%Q /\ (-180 <= s_long_min s)%Q /\ (s_long_max s <= 180)%Q /\ times_ok (time_range b).
Proof.
  intros Sy H. unfold from_json in H.
  rewrite (says_lat_min cfg s Sy), (says_lat_max cfg s Sy), (says_long_min cfg s Sy), (says_long_max cfg s Sy) in H. cbn [bind] in H.
  destruct (jget cfg "region") as [r|]; [|discriminate]. cbn [bind] in H.
  destruct (match jget r "start_time" with Ok s0 => match jget r "end_time" with Ok e => s1 <- as_str s0;; e0 <- as_str e;; texts <- time_texts pad now [s1; e0];; mapM day_of texts | Err _ => Ok [] end | Err _ => Ok [] end) as [days|]; [|discriminate].
  cbn [bind] in H. unfold Boundary in H. destruct days as [|t0 ts]; [|destruct ts as [|t1 ts]; [discriminate|]];
  (destruct (qltb_spec (s_lat_max s) (s_lat_min s)); [discriminate|];
   destruct (qltb_spec (s_long_min s) (-180)); [discriminate|]; destruct (qltb_spec 180 (s_long_max s)); [discriminate|]; cbn [orb] in H).
  - injection H as <-. cbn. repeat split; auto; try lra. left; auto.
  - destruct ts; [|discriminate]. destruct (t1 <? t0) eqn:L; [discriminate|]. injection H as <-. cbn. repeat split; auto; try lra.
    right. exists t0, t1. split; auto. apply Z.ltb_ge. auto.
Qed.

(** ** Tiling *)
Section Straight.
Variables (b : boundary) (cw ch : Q) (R C : Z).
Hypothesis Hb : valid_region b.
Hypothesis Hcw : (0 < cw)%Q.
Hypothesis Hch : (0 < ch)%Q.
Hypothesis HC : (long_max b - long_min b == inject_Z C * cw)%Q.
Hypothesis HR : (lat_max b - lat_min b == inject_Z R * ch)%Q.
Hypothesis HR0 : 0 <= R.
Variable srcs : list metadata.
Definition straight_cells : list (option cellbox) :=
  map Some (map (grid_cellbox b cw ch C srcs) (seq 0 (Z.to_nat R * Z.to_nat C))).
Lemma straight_inv : let g := initialise_neighbour_graph (Z.to_nat R * Z.to_nat C) (get_width b / cw) in
  mesh_inv (mkMesh straight_cells g false).
Proof.
  intros g. pose proof (C_pos b cw C Hb Hcw HC) as CP.
  assert (NRC : Z.of_nat (Z.to_nat R * Z.to_nat C) = R * C) by lia.
  split; [|split]; unfold live_cell; cbn [cells glob ng].
  - intros i c Hi. apply (cs_nth_inv b cw ch R C srcs) in Hi as [L ->]. split; [reflexivity|].
    destruct (div_bounds R C CP (Z.of_nat i) ltac:(lia)) as (Hr & Hc & _).
    eapply (grid_cell_ok b cw ch R C Hb Hcw Hch HC false); [exact Hc|discriminate|].
    apply (grid_at b cw ch R C Hb Hcw HC srcs); auto.
  - intros i j c c' Hi Hj N. apply (cs_nth_inv b cw ch R C srcs) in Hi as [Li ->]. apply (cs_nth_inv b cw ch R C srcs) in Hj as [Lj ->].
    destruct (div_bounds R C CP (Z.of_nat i) ltac:(lia)) as (Hr & Hc & Ei).
    destruct (div_bounds R C CP (Z.of_nat j) ltac:(lia)) as (Hr' & Hc' & Ej).
    eapply (grid_sep b cw ch R C Hcw Hch); [exact Hc|exact Hc'|apply (grid_at b cw ch R C Hb Hcw HC srcs); auto|apply (grid_at b cw ch R C Hb Hcw HC srcs); auto|].
    intros E. injection E as E1 E2. apply N. rewrite E1, E2 in Ei. lia.
  - exists (grid_f R C). split; [|apply (grid_exact_regional b cw ch R C Hb Hcw Hch HC HR0 srcs)].
    pose proof (initialise_graph_rep R C CP HR0 _ (gw_eq b cw C Hb Hcw HC)) as RG.
    replace (Z.to_nat (R * C)) with (Z.to_nat R * Z.to_nat C)%nat in RG by lia.
    eapply rep_ext; [|reflexivity|exact RG]. intros i. symmetry. apply (live_cs b cw ch R C Hb Hcw HC HR0 srcs).
Qed.
Lemma straight_tiles g gl : globe_tiled (region b) (mkMesh straight_cells g gl).
Proof.
  pose proof straight_inv as I. cbv zeta in I.
  pose proof (grid_tiles b cw ch R C Hb Hcw Hch HC HR HR0 srcs (mkMesh straight_cells (initialise_neighbour_graph (Z.to_nat R * Z.to_nat C) (get_width b / cw)) false) eq_refl I) as (T1 & T2 & T3).

  split; [|split].
  - intros x y (k & M). destruct (T1 _ _ M) as (i & c & Lc & Mc). exists i, c. split; [exact Lc|]. exists k. auto.
  - intros i c x y Lc (k & M). exists k. eapply T2; [|exact M]. exact Lc.
  - intros i j c c' x y Li Lj (k & Mi) (l & Mj).
    pose proof (T2 i c _ _ Li Mi) as Fi. pose proof (T2 j c' _ _ Lj Mj) as Fj.
    assert (k = l).
    { unfold mem in Fi, Fj. rewrite (region_x1 b Hb) in Fi, Fj. change (x0 (region b)) with (long_min b) in Fi, Fj.
      destruct Hb as ((? & ? & ? & ?) & _).
      assert (E : (inject_Z (k + - l) == inject_Z k - inject_Z l)%Q) by (rewrite inject_Z_plus, inject_Z_opp; lra).
      assert (k + - l = 0) by (apply int_zero; lra). lia. }
    subst l. eapply T3; eauto.
Qed.
End Straight.

(** From the checks to whole numbers of rows and columns. *)
Lemma straight_columns b cw ch : valid_region b -> (0 < cw)%Q -> (0 < ch)%Q -> (spans_globe b -> divides cw 360) ->
  validate_bounds b cw ch = Ok tt ->
  exists R C, 0 <= R /\ (long_max b - long_min b == inject_Z C * cw)%Q /\ (lat_max b - lat_min b == inject_Z R * ch)%Q.
Proof.
  intros ((B1 & B2 & B3 & B4) & T) Hcw Hch HG V. unfold validate_bounds in V.
  destruct (qeqb_spec cw 0); [discriminate|]. destruct (qeqb_spec ch 0); [discriminate|]. cbn [orb] in V.
  destruct (qeqb_spec (qmod (qmod (long_max b - long_min b) 360) cw) 0) as [E1|]; [|discriminate]. cbn [negb] in V.
  destruct (qeqb_spec (qmod (lat_max b - lat_min b) ch) 0) as [E2|]; [|discriminate]. clear V.
  destruct (qmod_zero_div (lat_max b - lat_min b) ch Hch ltac:(lra) E2) as (R & HR & ER).
  destruct (qmod_360_small (long_max b - long_min b)) as [[E L]|[E L]]; [lra| |].
  - rewrite (qmod_comp _ (long_max b - long_min b) _ cw) in E1 by (rewrite ?E; reflexivity).
    destruct (qmod_zero_div (long_max b - long_min b) cw Hcw ltac:(lra) E1) as (C & _ & EC). exists R, C. auto.
  - destruct HG as (C & HC); [split; lra|]. exists R, C. split; auto. split; auto. rewrite E. auto.
Qed.
Lemma closing_columns b cw ch : meaningful b -> (long_max b == long_min b)%Q -> (0 < cw)%Q -> (0 < ch)%Q -> divides cw 360 ->
  validate_bounds b cw ch = Ok tt ->
  exists R C, 0 <= R /\ (get_width b == inject_Z C * cw)%Q /\ (lat_max b - lat_min b == inject_Z R * ch)%Q.
Proof.
  intros (B1 & [B2 B2'] & [B3 B3'] & B4) L Hcw Hch (C & HC) V. unfold validate_bounds in V.
  destruct (qeqb_spec cw 0); [discriminate|]. destruct (qeqb_spec ch 0); [discriminate|]. cbn [orb] in V.
  destruct (qeqb_spec (qmod (qmod (long_max b - long_min b) 360) cw) 0) as [E1|]; [|discriminate]. cbn [negb] in V.
  destruct (qeqb_spec (qmod (lat_max b - lat_min b) ch) 0) as [E2|]; [|discriminate]. clear V.
  destruct (qmod_zero_div (lat_max b - lat_min b) ch Hch ltac:(lra) E2) as (R & HR & ER).
  exists R, C. split; auto. split; auto. rewrite <- HC. rewrite width_region. cbn. destruct (qltb_spec (long_min b) (long_max b)); lra.
Qed.
(** What the validator checks is what the builder checks. *)
Lemma steps_checked b cw ch : whole_steps (lat_min b) (lat_max b) ch -> whole_steps (long_min b) (long_max b) cw ->
  (lat_min b <= lat_max b)%Q -> (lat_max b - lat_min b < 360)%Q -> validate_bounds b cw ch = Ok tt.
Proof.
  intros (NH & k & n & H1 & H2 & H3) (NW & l & m & G1 & G2 & G3) L1 L2. unfold validate_bounds.
  destruct (qeqb_spec cw 0); [contradiction|]. destruct (qeqb_spec ch 0); [contradiction|]. cbn [orb].
  assert (M : forall k s, ~ (s == 0)%Q -> (qmod (inject_Z k * s) s == 0)%Q).
  { intros k' s' Hs. unfold qmod. rewrite (qfloor_eq _ k'); [lra|]. field. auto. }
  assert (K0 : k = 0) by (apply int_zero; lra). subst k. change (inject_Z 0) with 0%Q in H3.
  destruct (qmod_360 (long_max b - long_min b)) as ([M1 M2] & k & K).
  assert (X : (inject_Z (k + - l) == inject_Z k - inject_Z l)%Q) by (rewrite inject_Z_plus, inject_Z_opp; lra).
  assert (H : k + - l = 0) by (apply int_zero; lra). rewrite H in X. change (inject_Z 0) with 0%Q in X.
  assert (E1 : (qmod (qmod (long_max b - long_min b) 360) cw == 0)%Q).
  { rewrite (qmod_comp _ (inject_Z m * cw) _ cw); [apply M; auto|lra|reflexivity]. }
  assert (E2 : (qmod (lat_max b - lat_min b) ch == 0)%Q).
  { rewrite (qmod_comp _ (inject_Z n * ch) _ ch); [apply M; auto|lra|reflexivity]. }
  destruct (qeqb_spec (qmod (qmod (long_max b - long_min b) 360) cw) 0); [|contradiction]. cbn [negb].
  destruct (qeqb_spec (qmod (lat_max b - lat_min b) ch) 0); [|contradiction]. reflexivity.
Qed.

Theorem config_tiles files pad now cfg s b srcs :
  says cfg s -> sensible s -> validate_mesh_config files cfg = Ok tt -> from_json pad now cfg = Ok b ->
  validate_bounds b (s_width s) (s_height s) = Ok tt /\
  exists cs, initialize_cellboxes b (s_width s) (s_height s) srcs = Ok cs /\
    forall g gl, globe_tiled (region b) (mkMesh (map Some cs) g gl).
Proof.
  intros Sy ((W1 & W2 & W3 & W4 & W5 & W6) & WC) V F.
  apply (validate_says files cfg s Sy) in V as (_ & _ & A1 & A2).
  destruct (from_json_says pad now cfg s b Sy F) as (F1 & F2 & F3 & F4 & F5 & F6 & F7 & T).
  assert (VB : validate_bounds b (s_width s) (s_height s) = Ok tt).
  { apply steps_checked; rewrite ?F1, ?F2, ?F3, ?F4; auto. }
  split; auto.
  assert (Mb : meaningful b).
  { repeat split; rewrite ?F1, ?F2, ?F3, ?F4; auto. }
  destruct (Qlt_le_dec (long_min b) (long_max b)) as [L|L].
  - assert (Hb : valid_region b).
    { split; auto. rewrite F1, F2, F3, F4 in *. repeat split; auto. }
    destruct (straight_columns b (s_width s) (s_height s)) as (R & C & R0 & HC & HR); auto.
    { intros [G1 G2]. apply WC. right. rewrite F3 in G1. rewrite F4 in G2. auto. }
    eexists. split; [apply (initialize_cellboxes_ok b _ _ R C Hb W1 W2 HC HR srcs)|].
    intros g gl. apply (straight_tiles b (s_width s) (s_height s) R C); auto.
  - assert (X : exists R C, 0 <= R /\ (get_width b == inject_Z C * s_width s)%Q /\ (lat_max b - lat_min b == inject_Z R * s_height s)%Q).
    { destruct (Qeq_dec (long_max b) (long_min b)) as [E|E].
      - apply closing_columns; auto. apply WC. left. rewrite F3, F4 in E. lra.
      - apply wrap_columns; auto. lra. }
    destruct X as (R & C & R0 & HC & HR).
    eexists. split; [apply (initialize_cellboxes_wrap b _ _ R C Mb T L W1 W2 HC HR srcs)|].
    intros g gl. apply (wrap_tiles b (s_width s) (s_height s) R C); auto.
Qed.

(** ** Reading dates *)
Lemma time_texts_ok pad now s e d1 d2 n :
  parse_datetime pad now s = Ok (strftime pad d1) -> parse_datetime pad now e = Ok (strftime pad d2) ->
  calendar_date d1 -> year_ok d1 -> four_figures pad d1 -> year_ok d2 -> four_figures pad d2 -> days_after n d1 d2 ->
  time_texts pad now [s; e] = Ok [strftime pad d1; strftime pad d2] /\
  exists t0 t1, mapM day_of [strftime pad d1; strftime pad d2] = Ok [t0; t1] /\ t0 + Z.of_nat n = t1.
Proof.
  intros P1 P2 C1 Y1 F1 Y2 F2 D. destruct (days_after_ord n d1 d2 C1 D) as [C2 E].
  assert (S1 : strptime (strftime pad d1) = Some d1) by (apply written_strptime; auto; apply (strftime_iso pad d1); auto).
  assert (S2 : strptime (strftime pad d2) = Some d2) by (apply written_strptime; auto; apply (strftime_iso pad d2); auto).
  destruct d1 as [[y m] d]. destruct d2 as [[y' m'] d']. split.
  - unfold time_texts. change (py_nth [s; e] 0) with (Ok s). change (py_nth [s; e] 1) with (Ok e). cbn [bind].
    rewrite P1. cbn [bind]. rewrite P2. cbn [bind]. rewrite S1, S2.
    destruct (Z.ltb_spec (ymd2ord y' m' d') (ymd2ord y m d)); [lia|reflexivity].
  - exists (ymd2ord y m d), (ymd2ord y' m' d'). split; [|auto].
    cbn [mapM]. unfold day_of. rewrite S1, S2. reflexivity.
Qed.
Lemma from_json_ok pad now cfg s d1 d2 n : says cfg s ->
  parse_datetime pad now (s_start s) = Ok (strftime pad d1) -> parse_datetime pad now (s_end s) = Ok (strftime pad d2) ->
  calendar_date d1 -> year_ok d1 -> four_figures pad d1 -> year_ok d2 -> four_figures pad d2 -> days_after n d1 d2 ->
  (s_lat_min s <= s_lat_max s)%Q -> (-180 <= s_long_min s)%Q -> (s_long_max s <= 180)%Q ->
  exists b t, from_json pad now cfg = Ok b /\ b = mkB (s_lat_min s) (s_lat_max s) (s_long_min s) (s_long_max s) [t; t + Z.of_nat n].
Proof.
  intros Sy P1 P2 C1 Y1 F1 Y2 F2 D L1 L2 L3.
  destruct (time_texts_ok pad now _ _ d1 d2 n P1 P2 C1 Y1 F1 Y2 F2 D) as (T & t0 & t1 & M & E).
  unfold from_json.
  rewrite (says_lat_min cfg s Sy), (says_lat_max cfg s Sy), (says_long_min cfg s Sy), (says_long_max cfg s Sy). cbn [bind].
  destruct Sy as (o & r & d & p & -> & Er & RS & _). unfold jget at 1. rewrite Er. cbn [bind].
  destruct RS as (_ & _ & _ & _ & E1 & E2 & _). unfold text_at in E1, E2.
  unfold jget. rewrite E1, E2. cbn [as_str bind]. rewrite T. cbn [bind]. rewrite M. cbn [bind].
  unfold Boundary. destruct (qltb_spec (s_lat_max s) (s_lat_min s)); [exfalso; lra|].
  destruct (qltb_spec (s_long_min s) (-180)); [exfalso; lra|]. destruct (qltb_spec 180 (s_long_max s)); [exfalso; lra|].
  cbn [orb]. destruct (Z.ltb_spec t1 t0); [lia|]. subst t1. eexists. exists t0. split; reflexivity.
Qed.

(** ** Vessel and route configurations *)
Lemma number_of j q : number j q -> num_of j = Some q.
Proof. intros []; reflexivity. Qed.
Lemma ge_valid (lo : Q) v : (has_type TNumber v && (match num_of v with Some x => qleb lo x | None => true end && true) = true)%bool <->
  exists q, number v q /\ (lo <= q)%Q.
Proof.
  rewrite !andb_true_iff, type_number. split.
  - intros ((q & N) & H & _). rewrite (number_of v q N) in H. apply qleb_true in H. eauto.
  - intros (q & N & H). rewrite (number_of v q N). split; [eauto|]. split; auto. apply qleb_true. auto.
Qed.
Lemma between_valid (lo hi : Q) v : (has_type TNumber v && (match num_of v with Some x => qleb lo x | None => true end &&
    (match num_of v with Some x => qleb x hi | None => true end && true)) = true)%bool <->
  exists q, number v q /\ (lo <= q <= hi)%Q.
Proof.
  rewrite !andb_true_iff, type_number. split.
  - intros ((q & N) & H & H' & _). rewrite (number_of v q N) in H, H'. apply qleb_true in H, H'. eauto.
  - intros (q & N & H & H'). rewrite (number_of v q N). split; [eauto|]. split; [apply qleb_true; auto|]. split; [apply qleb_true; auto|]. auto.
Qed.
Lemma forall_ok {A} (x : option A) (f : A -> bool) P : (forall v, f v = true <-> P v) ->
  (match x with Some v => f v | None => true end = true <-> forall v, x = Some v -> P v).
Proof. intros H. destruct x as [v|]; [rewrite H|]; split; intros; try congruence; auto. Qed.

Theorem vessel_valid j : valid vessel_schema j = true <-> exists o, j = JObj o /\ vessel_says o.
Proof.
  split.
  - intros H. unfold vessel_schema in H. cbn [valid holds] in H.
    apply andb_prop in H as [T H]. apply type_object in T as (o & ->). exists o. split; auto.
    apply andb_prop in H as [Rq H]. apply andb_prop in H as [H _]. apply andb_prop in H as [P _].
    cbn [forallb] in Rq.
    repeat match goal with H : (match sget o ?n with Some _ => true | None => false end && _)%bool = true |- _ =>
      let v := fresh "v" in let E := fresh "E" in destruct (sget o n) as [v|] eqn:E; [cbn [andb] in H|discriminate] end.
    repeat match goal with H : (_ && _)%bool = true |- _ => apply andb_prop in H end.
    destruct P as [P1 P]. apply andb_prop in P as [P2 P]. apply andb_prop in P as [P3 P]. apply andb_prop in P as [P4 P].
    apply andb_prop in P as [P5 _]. rewrite andb_true_r in P1, P3.
    apply type_string in P1 as (t1 & ->). apply type_string in P3 as (t3 & ->). apply ge_valid in P2 as (q2 & N2 & L2).
    apply between_valid in P4 as (q4 & N4 & L4). apply ge_valid in P5 as (q5 & N5 & L5).
    unfold vessel_says, text_at, number_at. repeat split; eauto 6.
  - intros (o & -> & (t1 & E1) & (t2 & E2) & (q3 & (v3 & E3 & N3) & L3) & (q4 & (v4 & E4 & N4) & L4) & (q5 & (v5 & E5 & N5) & L5)).
    unfold text_at in *. unfold vessel_schema. cbn [valid holds forallb]. rewrite E1, E2, E3, E4, E5.
    rewrite (proj2 (ge_valid 0 v3)), (proj2 (between_valid 0 100 v4)), (proj2 (ge_valid 0 v5)) by eauto. reflexivity.
Qed.

Lemma texts_valid v : (has_type TArray v && (match v with JArr l => forallb (valid (Schema [KwType TString])) l | _ => true end && true))%bool = true <->
  text_list v (fun _ => True).
Proof.
  rewrite !andb_true_iff, type_array. unfold text_list. split.
  - intros ((l & ->) & H & _). exists l. split; auto. split; auto. rewrite forallb_forall in H. intros x I.
    apply H in I. cbn [valid holds] in I. rewrite andb_true_r in I. apply type_string in I. exact I.
  - intros (l & -> & _ & H). split; [eauto|]. split; auto. apply forallb_forall. intros x I.
    destruct (H x I) as (t & ->). reflexivity.
Qed.
Lemma pair_valid v : (has_type TArray v && (match v with JArr l => forallb (valid (Schema [KwType TString])) l | _ => true end &&
    (match v with JArr l => (2 <=? List.length l)%nat | _ => true end && (match v with JArr l => (List.length l <=? 2)%nat | _ => true end && true))))%bool = true <->
  text_list v (fun n => n = 2%nat).
Proof.
  split.
  - intros H. apply andb_prop in H as [T H]. apply andb_prop in H as [H1 H].
    assert (X : text_list v (fun _ => True)) by (apply texts_valid; rewrite T, H1; reflexivity).
    destruct X as (l & -> & _ & X). exists l. split; auto. split; auto.
    apply andb_prop in H as [A B]. apply andb_prop in B as [B _]. apply Nat.leb_le in A, B. lia.
  - intros (l & -> & L & H). assert (X : text_list (JArr l) (fun _ => True)) by (exists l; auto).
    apply texts_valid in X. apply andb_prop in X as [_ X]. apply andb_prop in X as [X _]. rewrite X, L. reflexivity.
Qed.
Lemma type_boolean j : has_type TBoolean j = true <-> exists b, j = JBool b.
Proof. split; [destruct j; cbn; try discriminate; eauto|intros (s & ->); reflexivity]. Qed.
Lemma unit_valid v : (has_type TString v && (match v with JStr s => existsb (String.eqb s) ["days"; "hours"; "seconds"] | _ => false end && true))%bool = true <->
  exists t, v = JStr t /\ (t = "days" \/ t = "hours" \/ t = "seconds").
Proof.
  rewrite !andb_true_iff, type_string. split.
  - intros ((t & ->) & H & _). exists t. split; auto. cbn [existsb] in H. rewrite !orb_true_iff, !String.eqb_eq in H. intuition discriminate.
  - intros (t & -> & H). split; [eauto|]. split; auto. cbn [existsb]. rewrite !orb_true_iff, !String.eqb_eq. tauto.
Qed.

Theorem route_valid j : valid route_schema j = true <-> exists o, j = JObj o /\ route_says o.
Proof.
  assert (NT : forall v, (has_type TNumber v && true)%bool = true <-> exists q, number v q) by (intros v; rewrite andb_true_r; apply type_number).
  assert (IT : forall v, (has_type TInteger v && true)%bool = true <-> exists q, whole v q) by (intros v; rewrite andb_true_r; apply type_integer).
  split.
  - intros H. unfold route_schema in H. cbn [valid holds] in H.
    apply andb_prop in H as [T H]. apply type_object in T as (o & ->). exists o. split; auto.
    apply andb_prop in H as [Rq H]. apply andb_prop in H as [H _]. apply andb_prop in H as [P _].
    cbn [forallb] in Rq.
    destruct (sget o "objective_function") as [v1|] eqn:E1; [|discriminate].
    destruct (sget o "path_variables") as [v2|] eqn:E2; [|discriminate].
    destruct (sget o "vector_names") as [v3|] eqn:E3; [|discriminate].
    destruct (sget o "variable_speed") as [v4|] eqn:E4; [|discriminate].
    destruct (sget o "time_unit") as [v5|] eqn:E5; [|discriminate].
    destruct (sget o "early_stopping_criterion") as [v6|] eqn:E6; [|discriminate].
    destruct (sget o "zero_currents") as [v7|] eqn:E7; [|discriminate].
    apply andb_prop in P as [P1 P]. apply andb_prop in P as [P2 P]. apply andb_prop in P as [P3 P]. apply andb_prop in P as [P4 P].
    apply andb_prop in P as [P5 P]. apply andb_prop in P as [P6 P]. apply andb_prop in P as [P7 P]. apply andb_prop in P as [P8 P].
    apply andb_prop in P as [P9 P]. apply andb_prop in P as [P10 P]. apply andb_prop in P as [P11 _].
    rewrite andb_true_r in P1, P4, P6, P7. apply type_string in P1 as (t1 & ->). apply texts_valid in P2. apply pair_valid in P3.
    apply type_boolean in P4 as (b4 & ->), P6 as (b6 & ->), P7 as (b7 & ->). apply unit_valid in P5 as (t5 & -> & U).
    unfold route_says, text_at, flag_at, if_present.
    split; [eauto|]. split; [eauto|]. split; [eauto|]. split; [eauto|]. split; [eauto|]. split; [eauto|]. split; [eauto|].
    split; [apply (forall_ok _ _ _ NT); auto|]. split; [apply (forall_ok _ _ _ IT); auto|].
    split; [apply (forall_ok _ _ _ NT); auto|]. apply (forall_ok _ _ _ NT); auto.
  - intros (o & -> & (t1 & E1) & (v2 & E2 & P2) & (v3 & E3 & P3) & (b4 & E4) & (b6 & E6) & (b7 & E7) & (t5 & E5 & U) & O1 & O2 & O3 & O4).
    unfold text_at in *. apply texts_valid in P2. apply pair_valid in P3.
    assert (P5 := proj2 (unit_valid (JStr t5)) (ex_intro _ t5 (conj eq_refl U))).
    apply (forall_ok _ _ _ NT) in O1, O3, O4. apply (forall_ok _ _ _ IT) in O2.
    unfold route_schema. cbn [valid holds forallb]. rewrite E1, E2, E3, E4, E5, E6, E7.
    change (has_type TObject (JObj o)) with true. change (has_type TString (JStr t1)) with true.
    change (has_type TBoolean (JBool b4)) with true. change (has_type TBoolean (JBool b6)) with true. change (has_type TBoolean (JBool b7)) with true.
    cbn [andb].
    apply andb_prop in P2 as [P2 P2']. apply andb_prop in P2' as [P2' _].
    apply andb_prop in P3 as [P3 P3']. apply andb_prop in P3' as [P3' P3a]. apply andb_prop in P3a as [P3a P3b]. apply andb_prop in P3b as [P3b _].
    apply andb_prop in P5 as [P5 P5']. apply andb_prop in P5' as [P5' _].
    repeat (apply andb_true_intro; split); try reflexivity; assumption.
Qed.

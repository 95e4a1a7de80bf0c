(** Proofs for C75. *)
From Coq Require Import Sorted.
From Verif Require Import Base Geo Graph Cell Loaders Builder Env Spec EnvSpec Dict PyStr Dates DateSpec DateProofs Config ConfigSpec ConfigProofs Params ParamSpec ParamProofs Pipeline PipeSpec PipeProofs Files FilesProofs Rebuild RebuildSpec.
Open Scope string_scope.
Open Scope Z_scope.

(** ** Replacing the files *)
Fixpoint swap (v : json) (p : params) : params :=
  match p with
  | [] => []
  | (k', v') :: d => if String.eqb "files" k' then (k', v) :: d else (k', v') :: swap v d
  end.
Lemma swap_with p v : with_files p v = swap v p.
Proof.
  unfold with_files. destruct (given p "files") eqn:G.
  - unfold given in G. revert G. induction p as [|[k' v'] p IH]; cbn -[String.eqb]; [discriminate|].
    destruct (String.eqb "files" k'); auto. intros G. f_equal. auto.
  - unfold given in G. revert G. induction p as [|[k' v'] p IH]; cbn -[String.eqb]; auto.
    destruct (String.eqb "files" k'); [discriminate|]. intros G. f_equal. auto.
Qed.
Lemma sget_swap v p k : k <> "files" -> sget (swap v p) k = sget p k.
Proof.
  intros N. induction p as [|[k' v'] p IH]; auto. cbn -[String.eqb]. destruct (String.eqb_spec "files" k') as [<-|].
  - cbn -[String.eqb]. destruct (String.eqb_spec k "files"); [contradiction|auto].
  - cbn -[String.eqb]. rewrite IH. auto.
Qed.
Lemma sget_swap_files v p : sget (swap v p) "files" = if given p "files" then Some v else None.
Proof.
  unfold given. induction p as [|[k' v'] p IH]; auto. cbn -[String.eqb]. destruct (String.eqb "files" k') eqn:E.
  - cbn -[String.eqb]. rewrite E. reflexivity.
  - cbn -[String.eqb]. rewrite E. exact IH.
Qed.
Lemma swap_keys v p : map fst (swap v p) = map fst p.
Proof. induction p as [|[k' v'] p IH]; auto. cbn -[String.eqb]. destruct (String.eqb "files" k'); cbn; f_equal; auto. Qed.
Lemma swap_swap v w p : swap v (swap w p) = swap v p.
Proof.
  induction p as [|[k' v'] p IH]; auto. cbn -[String.eqb]. destruct (String.eqb "files" k') eqn:E; cbn -[String.eqb]; rewrite E; [reflexivity|].
  f_equal. exact IH.
Qed.
Lemma given_swap v p k : given (swap v p) k = given p k.
Proof.
  unfold given. destruct (String.eqb_spec k "files") as [->|]; [|rewrite sget_swap; auto].
  rewrite sget_swap_files. unfold given. destruct (sget p "files"); reflexivity.
Qed.
Lemma sset_swap v p k x : k <> "files" -> sset (swap v p) k x = swap v (sset p k x).
Proof.
  intros N. induction p as [|[k' v'] p IH]; cbn -[String.eqb].
  - destruct (String.eqb_spec "files" k); [congruence|reflexivity].
  - destruct (String.eqb_spec "files" k') as [<-|E].
    + cbn -[String.eqb]. destruct (String.eqb_spec k "files"); [contradiction|]. cbn -[String.eqb]. reflexivity.
    + cbn -[String.eqb]. destruct (String.eqb k k') eqn:F; cbn -[String.eqb];
        (destruct (String.eqb_spec "files" k'); [contradiction|]); [reflexivity|]. f_equal. exact IH.
Qed.
Lemma dflt_swap v p k x : k <> "files" -> dflt k x (swap v p) = swap v (dflt k x p).
Proof. intros N. unfold dflt. rewrite given_swap. destruct (given p k); auto. apply sset_swap. exact N. Qed.
Lemma is_name_swap v p n : is_name (swap v p) n = is_name p n.
Proof. unfold is_name. rewrite sget_swap by discriminate. reflexivity. Qed.
Lemma is_null_swap v p k : k <> "files" -> is_null (swap v p) k = is_null p k.
Proof. intros N. unfold is_null. rewrite sget_swap by auto. reflexivity. Qed.

Local Opaque dflt sset given swap.
Ltac swaps := repeat first
  [ rewrite dflt_swap by discriminate | rewrite given_swap | rewrite sset_swap by discriminate
  | rewrite is_name_swap | rewrite is_null_swap by discriminate | rewrite sget_swap by discriminate ].
Lemma base_swap cls v p : base_defaults cls (swap v p) = swap v (base_defaults cls p).
Proof. unfold base_defaults. cbv zeta. swaps. reflexivity. Qed.
Lemma lut_swap cls v p : lut_defaults cls (swap v p) = swap v (lut_defaults cls p).
Proof. unfold lut_defaults. cbv zeta. swaps. reflexivity. Qed.
Lemma shape_swap cls v p : shape_defaults cls (swap v p) = swap v (shape_defaults cls p).
Proof.
  unfold shape_defaults. rewrite base_swap. generalize (base_defaults cls p). intros r. cbv zeta. swaps.
  set (t := dflt "multiplier" (JInt 1) _).
  destruct (is_name t "circle"); [swaps; reflexivity|].
  destruct (is_name t "rectangle").
  { destruct (given (dflt "width" (JInt 1) t) "height"); swaps; reflexivity. }
  destruct (is_name t "gradient"); [swaps; reflexivity|].
  destruct (is_name t "checkerboard"); [swaps|]; reflexivity.
Qed.
Lemma mult_swap v r : mult_part (swap v r) = swap v (mult_part r).
Proof.
  unfold mult_part. cbv zeta. swaps.
  destruct (given r "multiplier_u"); swaps.
  - destruct (given r "multiplier_v"); swaps; reflexivity.
  - destruct (given (sset r "multiplier" (JInt 1)) "multiplier_v"); swaps; reflexivity.
Qed.
Lemma vshape_swap cls v p : vector_shape_defaults cls (swap v p) = swap v (vector_shape_defaults cls p).
Proof.
  rewrite !vshape_form. rewrite base_swap. generalize (base_defaults cls p). intros r. swaps. rewrite mult_swap.
  generalize (mult_part (dflt "ny" (JInt 101) (dflt "nx" (JInt 101) r))). intros t.
  unfold vshape_part. rewrite !is_name_swap. unfold circle_part, rectangle_part. cbv zeta.
  destruct (is_name r "circle"); [swaps; reflexivity|].
  destruct (is_name r "rectangle").
  { swaps. destruct (given (dflt "width" (JInt 1) t) "height"); swaps; reflexivity. }
  destruct (is_name r "gradient"); [swaps|]; reflexivity.
Qed.
Definition rmap {A B} (f : A -> B) (x : res A) : res B := match x with Ok a => Ok (f a) | Err e => Err e end.
Lemma named_swap v s p : named s (swap v p) = swap v (named s p).
Proof. unfold named. swaps. destruct (is_null p "data_name"); swaps; reflexivity. Qed.
Lemma grf_base_swap cls v p : grf_base cls (swap v p) = swap v (grf_base cls p).
Proof. unfold grf_base. rewrite base_swap. swaps. reflexivity. Qed.
Lemma grf_swap cls v p : scalar_grf_defaults cls (swap v p) = rmap (swap v) (scalar_grf_defaults cls p).
Proof.
  rewrite !grf_form. cbv zeta. rewrite grf_base_swap. generalize (grf_base cls p). intros r. swaps.
  destruct (sget p "binary") as [b|]; [|reflexivity]. destruct (py_true b); cbn [rmap]; f_equal.
  - unfold binary_part. rewrite named_swap. swaps. reflexivity.
  - unfold smooth_part. rewrite named_swap. swaps. reflexivity.
Qed.
Lemma step_swap k x v p : k <> "files" -> vec_step k x (swap v p) = rmap (swap v) (vec_step k x p).
Proof.
  intros N. unfold vec_step. swaps. destruct (given p k); [reflexivity|]. destruct x; [|reflexivity]. cbn [bind rmap].
  rewrite sset_swap by exact N. reflexivity.
Qed.
Lemma vgrf_swap cls v p : vector_grf_defaults cls (swap v p) = rmap (swap v) (vector_grf_defaults cls p).
Proof.
  rewrite !vgrf_form. cbv zeta. rewrite grf_base_swap, named_swap. generalize (named "uC,vC" (grf_base cls p)). intros r.
  assert (P : forall i, vec_part (swap v r) i = vec_part r i) by (intros i; unfold vec_part; swaps; reflexivity).
  rewrite !P, step_swap by discriminate. destruct (vec_step "vec_x" (vec_part r 0) r) as [a|]; [|reflexivity]. cbn [bind rmap].
  rewrite step_swap by discriminate. destruct (vec_step "vec_y" (vec_part r 1) a) as [c|]; [|reflexivity]. cbn [bind rmap].
  swaps. reflexivity.
Qed.
Lemma amsr_swap cls v p : amsr_defaults cls (swap v p) = rmap (swap v) (amsr_defaults cls p).
Proof.
  unfold amsr_defaults. rewrite base_swap. generalize (base_defaults cls p). intros r. cbv zeta. swaps.
  destruct (sget r "hemisphere") as [[]|]; try reflexivity.
  destruct (String.eqb (lower s) "north"); [cbn [rmap]; swaps; reflexivity|].
  destruct (String.eqb (lower s) "south"); [cbn [rmap]; swaps|]; reflexivity.
Qed.
Lemma defaults_swap cls v p : add_default_params cls (swap v p) = rmap (swap v) (add_default_params cls p).
Proof.
  unfold add_default_params.
  destruct (String.eqb cls "ShapeDataLoader"); [cbn [rmap]; f_equal; apply shape_swap|].
  destruct (String.eqb cls "VectorShapeDataLoader"); [cbn [rmap]; f_equal; apply vshape_swap|].
  destruct (String.eqb cls "ScalarGRFDataLoader"); [apply grf_swap|].
  destruct (String.eqb cls "VectorGRFDataLoader"); [apply vgrf_swap|].
  destruct (String.eqb cls "AMSRDataLoader"); [apply amsr_swap|].
  destruct (String.eqb cls "LutGeoJSON" || String.eqb cls "LutShapefile").
  { cbn [rmap]. f_equal. rewrite !lut_file_same. apply lut_swap. }
  destruct (existsb (String.eqb cls) lut_classes); cbn [rmap]; f_equal; [apply lut_swap|apply base_swap].
Qed.

(** ** What the defaults leave alone *)
Definition altered : list string := ["data_name"; "width"; "multiplier"; "in_proj"; "x_col"; "y_col"].
Lemma keeps_but_more l p q k x : keeps_but l p q -> incl l altered -> ~ In k altered -> sget p k = Some x -> sget q k = Some x.
Proof. intros K I N E. apply K; auto. Qed.
Lemma defaults_leave cls p p' k x : add_default_params cls p = Ok p' -> ~ In k altered -> sget p k = Some x -> sget p' k = Some x.
Proof.
  intros E N G. unfold add_default_params in E.
  assert (I : forall l, forallb (fun a => existsb (String.eqb a) altered) l = true -> incl l altered).
  { intros l H a Ha. rewrite forallb_forall in H. specialize (H a Ha). apply existsb_exists in H as (b & Hb & Eb).
    apply String.eqb_eq in Eb as ->. exact Hb. }
  assert (D : k <> "data_name") by (intros ->; apply N; cbn; auto).
  destruct (String.eqb cls "ShapeDataLoader"); [injection E as <-; eapply keeps_but_more; [apply shape_keeps_but|apply I; reflexivity|exact N|exact G]|].
  destruct (String.eqb cls "VectorShapeDataLoader"); [injection E as <-; eapply keeps_but_more; [apply vshape_keeps_but|apply I; reflexivity|exact N|exact G]|].
  destruct (String.eqb cls "ScalarGRFDataLoader"); [eapply grf_keeps; eauto; intros ->; contradiction|].
  destruct (String.eqb cls "VectorGRFDataLoader"); [apply vgrf_facts in E as (E & _); apply E; auto; intros ->; contradiction|].
  destruct (String.eqb cls "AMSRDataLoader"); [apply amsr_facts in E as (E & _); eapply keeps_but_more; [exact E|apply I; reflexivity|exact N|exact G]|].
  destruct (String.eqb cls "LutGeoJSON" || String.eqb cls "LutShapefile").
  { injection E as <-. rewrite lut_file_same. apply lut_keeps. exact G. }
  destruct (existsb (String.eqb cls) lut_classes); injection E as <-; [apply lut_keeps|apply base_keeps]; exact G.
Qed.
Lemma required_left name cls req k : In (name, (cls, req)) requirements -> In k req -> ~ In k altered.
Proof.
  intros H K. assert (X : forallb (fun e => forallb (fun r => negb (existsb (String.eqb r) altered)) (snd (snd e))) requirements = true)
    by (vm_compute; reflexivity).
  rewrite forallb_forall in X. specialize (X _ H). cbn [snd] in X. rewrite forallb_forall in X. specialize (X _ K).
  intros A. apply Bool.negb_true_iff in X. assert (existsb (String.eqb k) altered = true); [|congruence].
  apply existsb_exists. exists k. split; auto. apply seqb_refl.
Qed.

(** ** A source again *)
Lemma called_again glob glob' mdp name p cls p2 v : one_way (name, p) -> called glob mdp name p = Ok (cls, p2) ->
  called glob' mdp name (with_files p2 v) = Ok (cls, with_files p2 v).
Proof.
  intros (D & W) E. cbn [snd] in D, W. unfold called in E. destruct (get_dataloader glob name p mdp) as [[c p1]|] eqn:F; [|discriminate]. cbn [bind fst snd] in E.
  destruct (add_default_params c p1) as [q2|] eqn:A; [|discriminate]. cbn [bind] in E. injection E as <- <-. rename q2 into p2, c into cls.
  rewrite swap_with.
  unfold get_dataloader in F. destruct (translate_file_input glob p) as [q|] eqn:T; [|discriminate]. cbn [bind] in F.
  destruct (sget requirements (lower name)) as [[c req]|] eqn:Rq; [|discriminate].
  destruct (forallb (given (sset (sset q "dataloader_name" (JStr (lower name))) "min_dp" (JInt mdp))) req) eqn:Fa; [|discriminate].
  injection F as -> <-.
  set (p1 := sset (sset q "dataloader_name" (JStr (lower name))) "min_dp" (JInt mdp)) in *.
  assert (NF : sget q "file" = None /\ sget q "folder" = None).
  { pose proof (translate_twice glob p q D W T) as T2. unfold translate_file_input in T2.
    destruct (translate_spec glob p q D T) as (_ & Nf & _). split; [exact Nf|]. rewrite Nf in T2.
    destruct (sget q "folder") as [[]|] eqn:Fo; try discriminate; auto.
    injection T2 as T2. exfalso. destruct (translate_spec glob p q D T) as (_ & _ & X).
    destruct (sget p "file") eqn:Fi; [destruct W as [W|W]; [discriminate|]; rewrite W in X; destruct X as (_ & X); congruence|].
    destruct (sget p "folder") eqn:Fp; [destruct X as (? & _ & _ & X); congruence|]. subst q. congruence. }
  assert (N2 : sget p2 "file" = None /\ sget p2 "folder" = None).
  { rewrite (defaults_untouched _ _ _ "file" ltac:(cbn; tauto) A), (defaults_untouched _ _ _ "folder" ltac:(cbn; tauto) A). unfold p1. rewrite !sget_sset. cbn [String.eqb Ascii.eqb Bool.eqb]. exact NF. }
  assert (K : forall k x, ~ In k altered -> sget p1 k = Some x -> sget p2 k = Some x) by (intros k x; apply (defaults_leave cls); exact A).
  assert (Dn : sget (swap v p2) "dataloader_name" = Some (JStr (lower name))).
  { rewrite sget_swap by discriminate. apply K; [cbn; intuition discriminate|]. unfold p1. rewrite !sget_sset. reflexivity. }
  assert (Dm : sget (swap v p2) "min_dp" = Some (JInt mdp)).
  { rewrite sget_swap by discriminate. apply K; [cbn; intuition discriminate|]. unfold p1. rewrite !sget_sset. reflexivity. }
  unfold called, get_dataloader, translate_file_input. rewrite !sget_swap by discriminate. destruct N2 as (-> & ->). cbn [bind].
  rewrite (sset_same _ _ _ Dn), (sset_same _ _ _ Dm), Rq.
  assert (Fb : forallb (given (swap v p2)) req = true).
  { apply forallb_forall. intros r Hr. rewrite given_swap. rewrite forallb_forall in Fa. specialize (Fa r Hr).
    apply given_some. apply given_some in Fa. destruct (sget p1 r) as [x|] eqn:Sr; [|contradiction].
    rewrite (K r x); [discriminate| |exact Sr]. apply (required_left (lower name) cls req); auto. apply ParamProofs.sget_in. exact Rq. }
  rewrite Fb. cbn [bind fst snd]. rewrite defaults_swap, (defaults_idempotent _ _ _ A). reflexivity.
Qed.

(** ** Dates the boundary accepts are written with ten characters *)
Lemma digits_prefix a : forall b x y, all_digits a -> all_digits b -> (a ++ "-" ++ x = b ++ "-" ++ y)%string -> a = b.
Proof.
  induction a as [|c a IH]; intros [|d b] x y A B E; auto.
  - cbn in E. injection E as E _. apply digits_cons in B as (B & _). exfalso. pose proof (digit_not_dash d B) as N. subst d. discriminate.
  - cbn in E. injection E as E _. apply digits_cons in A as (A & _). exfalso. pose proof (digit_not_dash c A) as N. subst c. discriminate.
  - cbn in E. injection E as -> E. apply digits_cons in A as (_ & A). apply digits_cons in B as (_ & B). f_equal. exact (IH b x y A B E).
Qed.
Lemma digits_drop s : all_digits s -> all_digits (drop_zeros s).
Proof.
  induction s as [|c s IH]; cbn [drop_zeros]; auto. intros A. destruct (Ascii.eqb c "0"); auto. apply digits_cons in A as (_ & A). auto.
Qed.
Lemma readable_length pad date x : calendar_date date -> year_ok date -> strptime (strftime pad date) = Some x ->
  String.length (strftime pad date) = 10%nat.
Proof.
  intros C Y E. apply strptime_inv in E as (E & _). 
  assert (F : four_figures pad date).
  { destruct date as [[y m] d]. destruct pad; [left; reflexivity|]. right. cbn [fst]. unfold year_ok in Y.
    destruct (four_digits_ok y ltac:(cbn in Y; lia)) as (A & _). destruct (Z.le_gt_cases 1000 y) as [|Lt]; [auto|exfalso].
    pose proof (drop_zeros_small y ltac:(cbn in Y; lia)) as Sm. destruct x as [[y' m'] d']. unfold strftime in E.
    destruct E as [E|E]; destruct E as (ys & ms & ds & E & Dy & _ & _ & L & _); apply digits_prefix in E; auto using digits_drop; rewrite E, L in Sm; lia. }
  apply (strftime_iso pad date C Y F).
Qed.

(** ** The files chosen are chosen again *)
Lemma pick_again {A} (p : A -> res bool) l r : pick p l = Ok r -> pick p r = Ok r.
Proof.
  revert r. induction l as [|x l IH]; intros r E; cbn [pick] in E; [injection E as <-; reflexivity|].
  destruct (p x) as [b|] eqn:P; [|discriminate]. cbn [bind] in E. destruct (pick p l) as [r0|] eqn:Q; [|discriminate]. cbn [bind] in E.
  injection E as <-. specialize (IH r0 eq_refl). destruct b; auto. cbn [pick]. rewrite P, IH. reflexivity.
Qed.
Lemma era5_again t0 t1 l r : era5_files t0 t1 l = Ok r -> era5_files t0 t1 r = Ok r.
Proof.
  unfold era5_files. destruct (pick _ l) as [q|] eqn:P; [|discriminate]. cbn [bind]. destruct q as [|x q]; [discriminate|]. intros [= <-].
  rewrite (pick_again _ _ _ P). reflexivity.
Qed.
Lemma amsr_again t0 t1 l r : amsr_files t0 t1 l = Ok r -> amsr_files t0 t1 r = Ok r.
Proof.
  unfold amsr_files. destruct (pick _ l) as [q|] eqn:P; [|discriminate]. cbn [bind]. destruct q as [|x q]; [discriminate|]. intros [= <-].
  rewrite (pick_again _ _ _ P). reflexivity.
Qed.
Lemma pick_sub {A} (p : A -> res bool) l r : pick p l = Ok r -> forall x, In x r -> In x l /\ p x = Ok true.
Proof.
  revert r. induction l as [|y l IH]; intros r E x I; cbn [pick] in E; [injection E as <-; destruct I|].
  destruct (p y) as [b|] eqn:P; [|discriminate]. cbn [bind] in E. destruct (pick p l) as [r0|] eqn:Q; [|discriminate]. cbn [bind] in E.
  injection E as <-. destruct b.
  - destruct I as [<-|I]; [split; [left; reflexivity|exact P]|]. destruct (IH r0 eq_refl x I). split; [right|]; auto.
  - destruct (IH r0 eq_refl x I). split; [right|]; auto.
Qed.
Lemma pick_sorted (p : string -> res bool) l r : StronglySorted desc l -> pick p l = Ok r -> StronglySorted desc r.
Proof.
  intros S0. revert r. induction S0 as [|y l S0 IH F]; intros r E; cbn [pick] in E; [injection E as <-; constructor|].
  destruct (p y) as [b|] eqn:P; [|discriminate]. cbn [bind] in E. destruct (pick p l) as [r0|] eqn:Q; [|discriminate]. cbn [bind] in E.
  injection E as <-. specialize (IH r0 eq_refl). destruct b; auto. constructor; auto. apply Forall_forall. intros x I.
  rewrite Forall_forall in F. apply F. apply (pick_sub _ _ _ Q x I).
Qed.
Lemma pick_all {A} (p : A -> res bool) l : (forall x, In x l -> p x = Ok true) -> pick p l = Ok l.
Proof. induction l as [|x l IH]; intros H; auto. cbn [pick]. rewrite (H x (or_introl eq_refl)). cbn [bind]. rewrite IH; auto. intros y I. apply H. right. exact I. Qed.
Lemma sorted_desc_same l : StronglySorted desc l -> sorted_desc l = l.
Proof.
  induction 1 as [|x l H IH F]; auto. unfold sorted_desc in *. cbn [fold_right]. rewrite IH. destruct l as [|y l]; auto.
  cbn [insert_desc]. inversion F as [|? ? D _]; subst. unfold desc in D. rewrite D. reflexivity.
Qed.
Lemma ecmwf_again base valid t0 t1 l r : ecmwf_files base valid t0 t1 l = Ok r -> ecmwf_files base valid t0 t1 r = Ok r.
Proof.
  unfold ecmwf_files. cbv zeta. destruct (first_before base t0 (sorted_desc l)) as [cl|] eqn:Fi; [|discriminate]. cbn [bind].
  destruct (pick _ (sorted_desc l)) as [q|] eqn:P; [|discriminate]. cbn [bind].
  destruct (pick (fun f => t <- reads valid f ;; Ok ((t0 <=? t) && (t <=? t1))) q) as [r0|] eqn:Q; [|discriminate]. cbn [bind].
  destruct r0 as [|f r0]; [discriminate|]. intros [= <-].
  pose proof (sorted_desc_sorted l) as S0. pose proof (pick_sorted _ _ _ S0 P) as S1. pose proof (pick_sorted _ _ _ S1 Q) as S2.
  assert (B : forall x, In x (f :: r0) -> reads base x = Ok cl).
  { intros x I. apply (pick_sub _ _ _ Q) in I as (I & _). apply (pick_sub _ _ _ P) in I as (_ & I).
    destruct (reads base x) as [d|]; [|discriminate]. cbn [bind] in I. injection I as I. apply Z.eqb_eq in I. congruence. }
  assert (Lt : cl <? t0 = true).
  { clear - Fi. revert Fi. generalize (sorted_desc l). induction l0 as [|x l0 IH]; cbn [first_before]; [discriminate|].
    destruct (reads base x) as [d|]; [|discriminate]. cbn [bind]. destruct (d <? t0) eqn:E; auto. intros [= <-]. exact E. }
  rewrite (sorted_desc_same _ S2). cbn [first_before]. rewrite (B f (or_introl eq_refl)). cbn [bind]. rewrite Lt. cbn [bind].
  rewrite (pick_all (fun f => d <- reads base f ;; Ok (d =? cl))).
  2:{ intros x I. rewrite (B x I). cbn [bind]. rewrite Z.eqb_refl. reflexivity. }
  cbn [bind]. rewrite (pick_again _ _ _ Q). reflexivity.
Qed.

Section Again.
  Variables (files files' : string -> option json) (pad : bool) (now now' : Z) (glob glob' : string -> list string) (ft : string -> bool).
  Variables (con con' : nat -> string -> params -> boundary -> res (loader * data)) (lf lf' : nat -> string -> params -> boundary -> json).

  (** The data read the second time are those read the first time. *)
  Definition read_again (b : boundary) (mdp : Z) (k : nat) (src : string * sdict json) : Prop :=
    forall cls p, called glob mdp (fst src) (snd src) = Ok (cls, p) ->
      con' k cls (with_files p (lf k cls p b)) b = con k cls p b /\ lf' k cls (with_files p (lf k cls p b)) b = lf k cls p b.

  Lemma source_again b mdp k j l j' : loader_says j l -> one_way l -> read_again b mdp k l ->
    stored_source glob lf b mdp k j = Ok j' ->
    source_metadata glob' ft con' b mdp k j' = source_metadata glob ft con b mdp k j /\
    stored_source glob' lf' b mdp k j' = Ok j' /\
    exists cls p, called glob mdp (fst l) (snd l) = Ok (cls, p) /\ loader_says j' (fst l, with_files p (lf k cls p b)).
  Proof.
    intros (o & -> & Hn & Hp & Ho) W R. destruct l as [name p]. cbn [fst snd] in *.
    unfold stored_source at 1. rewrite (jget_at _ _ _ Hn), (jget_at _ _ _ Hp). cbn [bind as_str as_obj].
    destruct (called glob mdp name p) as [[cls p2]|] eqn:C; [|discriminate]. cbn [bind fst snd]. intros [= <-].
    destruct (R cls p2 C) as (R1 & R2). pose proof (called_again glob glob' mdp name p cls p2 (lf k cls p2 b) W C) as C2.
    set (p3 := with_files p2 (lf k cls p2 b)) in *.
    assert (Hn' : sget (sset o "params" (JObj p3)) "loader" = Some (JStr name)) by (rewrite sset_other by discriminate; exact Hn).
    assert (Hp' : sget (sset o "params" (JObj p3)) "params" = Some (JObj p3)) by (rewrite sget_sset; reflexivity).
    split; [|split].
    - unfold source_metadata. rewrite (jget_at _ _ _ Hn), (jget_at _ _ _ Hp), (jget_at _ _ _ Hn'), (jget_at _ _ _ Hp'). cbn [bind as_str as_obj].
      unfold called in C, C2.
      destruct (get_dataloader glob name p mdp) as [[c1 q1]|]; [|discriminate]. cbn [bind fst snd] in C |- *.
      destruct (add_default_params c1 q1) as [q2|]; [|discriminate]. cbn [bind] in C |- *. injection C as -> ->.
      destruct (get_dataloader glob' name p3 mdp) as [[c1' q1']|]; [|discriminate]. cbn [bind fst snd] in C2 |- *.
      destruct (add_default_params c1' q1') as [q2'|]; [|discriminate]. cbn [bind] in C2 |- *. injection C2 as -> ->.
      rewrite R1. destruct (con k cls p2 b) as [ld|]; [|reflexivity]. cbn [bind].
      assert (S1 : (if table_class cls then table_conditions else splitting_conditions) p3 (l_names (fst ld)) =
                   (if table_class cls then table_conditions else splitting_conditions) p2 (l_names (fst ld))).
      { unfold splitting_conditions, table_conditions, p3. destruct (table_class cls); rewrite swap_with, sget_swap by discriminate; reflexivity. }
      assert (S2 : check_value_fill_type ft p3 = check_value_fill_type ft p2).
      { unfold check_value_fill_type, p3. rewrite swap_with, sget_swap by discriminate. reflexivity. }
      rewrite S1, S2. reflexivity.
    - unfold stored_source. rewrite (jget_at _ _ _ Hn'), (jget_at _ _ _ Hp'). cbn [bind as_str as_obj]. rewrite C2. cbn [bind fst snd].
      rewrite R2. assert (E : with_files p3 (lf k cls p2 b) = p3).
      { unfold p3. rewrite !swap_with. apply swap_swap. }
      rewrite E, (sset_same _ _ _ Hp'). reflexivity.
    - exists cls, p2. split; [reflexivity|]. exists (sset o "params" (JObj p3)). split; [reflexivity|]. split; [exact Hn'|]. split; [exact Hp'|].
      intros x v I. apply (in_map fst) in I. cbn [fst] in I. apply PipeProofs.sset_keys in I as [->|I]; [cbn; auto|].
      apply in_map_iff in I as ((x0 & v0) & E & I). cbn in E. subst x0. apply (Ho _ _ I).
  Qed.

  Lemma sources_again b mdp : forall d ls k d', Forall2 loader_says d ls -> Forall one_way ls ->
    (forall i l, nth_error ls i = Some l -> read_again b mdp (k + i) l) ->
    mapM (fun kj => stored_source glob lf b mdp (fst kj) (snd kj)) (combine (seq k (List.length d)) d) = Ok d' ->
    List.length d' = List.length d /\
    mapM (fun kj => source_metadata glob' ft con' b mdp (fst kj) (snd kj)) (combine (seq k (List.length d')) d') =
      mapM (fun kj => source_metadata glob ft con b mdp (fst kj) (snd kj)) (combine (seq k (List.length d)) d) /\
    mapM (fun kj => stored_source glob' lf' b mdp (fst kj) (snd kj)) (combine (seq k (List.length d')) d') = Ok d' /\
    exists ls', Forall2 loader_says d' ls' /\ map fst ls' = map fst ls /\
      forall i l, nth_error ls i = Some l -> exists cls p, called glob mdp (fst l) (snd l) = Ok (cls, p) /\
        nth_error ls' i = Some (fst l, with_files p (lf (k + i) cls p b)).
  Proof.
    induction d as [|j d IH]; intros ls k d' F W R E.
    - inversion F; subst. cbn in E. injection E as <-. cbn. repeat split; auto. exists []. repeat split; auto.
      intros i l H. destruct i; discriminate.
    - inversion F as [|? l ? ls0 L F0]; subst. inversion W as [|? ? W1 W0]; subst. cbn [List.length seq combine mapM fst snd] in E |- *.
      destruct (stored_source glob lf b mdp k j) as [j'|] eqn:J; [|discriminate]. cbn [bind] in E.
      destruct (mapM _ _) as [d0|] eqn:E0 in E; [|discriminate]. cbn [bind] in E. injection E as <-.
      destruct (source_again b mdp k j l j' L W1) as (A1 & A2 & cls & p & A3 & A4).
      { specialize (R O l eq_refl). rewrite Nat.add_0_r in R. exact R. } { exact J. }
      destruct (IH ls0 (S k) d0 F0 W0) as (B0 & B1 & B2 & ls' & B3 & B4 & B5).
      { intros i l0 H. specialize (R (S i) l0 H). rewrite <- Nat.add_succ_comm in R. exact R. } { exact E0. }
      cbn [List.length seq combine mapM fst snd]. rewrite A1, A2, B1, B2. cbn [bind].
      split; [f_equal; exact B0|]. split; [reflexivity|]. split; [reflexivity|].
      exists ((fst l, with_files p (lf k cls p b)) :: ls'). split; [constructor; auto|]. split; [cbn; f_equal; exact B4|].
      intros [|i] l0 H; cbn [nth_error] in *.
      + injection H as <-. rewrite Nat.add_0_r. eauto.
      + rewrite <- Nat.add_succ_comm. apply B5. exact H.
  Qed.

  (** ** The dates *)
  Lemma texts_parts a e l : time_texts pad now [a; e] = Ok l -> exists t0 t1, l = [t0; t1] /\
    parse_datetime pad now a = Ok t0 /\ parse_datetime pad now e = Ok t1.
  Proof.
    unfold time_texts. change (py_nth [a; e] 0) with (Ok a). change (py_nth [a; e] 1) with (Ok e). cbn [bind].
    destruct (parse_datetime pad now a) as [t0|]; [|discriminate]. cbn [bind].
    destruct (parse_datetime pad now e) as [t1|]; [|discriminate]. cbn [bind].
    destruct (strptime t0) as [[[y m] d]|]; [|discriminate]. destruct (strptime t1) as [[[y' m'] d']|]; [|discriminate].
    destruct (ymd2ord y' m' d' <? ymd2ord y m d); [discriminate|]. intros [= <-]. eauto 10.
  Qed.
  Lemma texts_readable a e t0 t1 : time_texts pad now [a; e] = Ok [t0; t1] -> exists d0 d1, strptime t0 = Some d0 /\ strptime t1 = Some d1.
  Proof.
    intros E. destruct (texts_parts _ _ _ E) as (u0 & u1 & [= <- <-] & P0 & P1). revert E.
    unfold time_texts. change (py_nth [a; e] 0) with (Ok a). change (py_nth [a; e] 1) with (Ok e). cbn [bind]. rewrite P0. cbn [bind]. rewrite P1. cbn [bind].
    destruct (strptime t0) as [[[y m] d]|]; [|discriminate]. destruct (strptime t1) as [[[y' m'] d']|]; [|discriminate]. eauto.
  Qed.
  Lemma texts_again a e t0 t1 : year_ok (today_of now) -> time_texts pad now [a; e] = Ok [t0; t1] ->
    time_texts pad now' [t0; t1] = Ok [t0; t1] /\ accepted_time t0 /\ accepted_time t1.
  Proof.
    intros T E. destruct (texts_parts _ _ _ E) as (u0 & u1 & [= <- <-] & P0 & P1).
    destruct (texts_readable _ _ _ _ E) as (d0 & d1 & S0 & S1).
    assert (L0 : String.length t0 = 10%nat).
    { destruct (parse_shape _ _ _ _ T P0) as (date & -> & C & Y). eapply readable_length; eauto. }
    assert (L1 : String.length t1 = 10%nat).
    { destruct (parse_shape _ _ _ _ T P1) as (date & -> & C & Y). eapply readable_length; eauto. }
    split; [|split].
    - revert E. unfold time_texts. change (py_nth [a; e] 0) with (Ok a). change (py_nth [a; e] 1) with (Ok e).
      change (py_nth [t0; t1] 0) with (Ok t0). change (py_nth [t0; t1] 1) with (Ok t1). cbn [bind]. rewrite P0, P1, (parse_idempotent pad now now' a t0 T P0 L0), (parse_idempotent pad now now' e t1 T P1 L1). auto.
    - destruct (parse_shape _ _ _ _ T P0) as (date & -> & C & Y). right. left. exists date. split; auto.
      apply (strftime_iso pad date C Y). apply strftime_length; auto.
    - destruct (parse_shape _ _ _ _ T P1) as (date & -> & C & Y). right. left. exists date. split; auto.
      apply (strftime_iso pad date C Y). apply strftime_length; auto.
  Qed.
  Lemma from_json_form nw cfg s : says cfg s -> from_json pad nw cfg =
    (texts <- time_texts pad nw [s_start s; s_end s] ;; days <- mapM day_of texts ;;
     Boundary [s_lat_min s; s_lat_max s] [s_long_min s; s_long_max s] days).
  Proof.
    intros Sy. unfold from_json. rewrite (says_lat_min cfg s Sy), (says_lat_max cfg s Sy), (says_long_min cfg s Sy), (says_long_max cfg s Sy). cbn [bind].
    destruct Sy as (o & r & d & p & -> & Hr & (_ & _ & _ & _ & T0 & T1 & _) & _). rewrite (jget_at _ _ _ Hr). cbn [bind].
    rewrite (jget_at _ _ _ T0), (jget_at _ _ _ T1). cbn [as_str bind].
    destruct (time_texts pad nw [s_start s; s_end s]) as [l|]; reflexivity.
  Qed.

  (** ** The whole configuration *)
  Lemma number_sset r k0 v k q : k <> k0 -> number_at r k q -> number_at (sset r k0 v) k q.
  Proof. intros N (j & G & H). exists j. split; auto. rewrite sset_other; auto. Qed.
  Theorem rebuilt fuel cfg em cfg' s : build files pad now glob ft con lf fuel cfg = Ok (em, cfg') ->
    says cfg s -> year_ok (today_of now) ->
    Forall one_way (s_loaders s) ->
    (forall b k l, from_json pad now cfg = Ok b -> nth_error (s_loaders s) k = Some l -> read_again b (s_points s) k l) ->
    build files' pad now' glob' ft con' lf' fuel cfg' = Ok (em, cfg') /\
    exists b s', from_json pad now cfg = Ok b /\ says cfg' s' /\ same_grid s s' /\
      parse_datetime pad now (s_start s) = Ok (s_start s') /\ parse_datetime pad now (s_end s) = Ok (s_end s') /\
      map fst (s_loaders s') = map fst (s_loaders s) /\
      forall k l, nth_error (s_loaders s) k = Some l -> exists cls p, called glob (s_points s) (fst l) (snd l) = Ok (cls, p) /\
        nth_error (s_loaders s') k = Some (fst l, with_files p (lf k cls p b)).
  Proof.
    intros B Sy T W R. unfold build in B. destruct (generate files pad now glob ft con fuel cfg) as [em0|] eqn:G; [|discriminate]. cbn [bind] in B.
    destruct (stored_config pad now glob lf cfg) as [c0|] eqn:Sc; [|discriminate]. cbn [bind] in B. injection B as -> ->.
    assert (V : validate_mesh_config files cfg = Ok tt).
    { unfold generate, mesh_builder_init in G. destruct (validate_mesh_config files cfg) as [[]|]; [reflexivity|discriminate]. }
    pose proof (proj1 (validate_says files cfg s Sy) V) as Acc.
    pose proof (from_json_form now cfg s Sy) as Fj.
    unfold stored_config in Sc. destruct (from_json pad now cfg) as [b|] eqn:Fb; [|discriminate]. cbn [bind] in Sc.
    specialize (R b). 
    destruct (time_texts pad now [s_start s; s_end s]) as [l|] eqn:Tt; [|discriminate]. cbn [bind] in Fj.
    destruct (texts_parts _ _ _ Tt) as (t0 & t1 & -> & P0 & P1).
    destruct (texts_again _ _ t0 t1 T Tt) as (Tt' & Ac0 & Ac1).
    pose proof Sy as (o & r & d & p & -> & Hr & Rs & Hd & Fl & Hs & Dp & Mp & Ok_).
    pose proof Rs as (Q1 & Q2 & Q3 & Q4 & T0 & T1 & Q5 & Q6 & Rk).
    cbn [as_obj bind] in Sc. rewrite (jget_at _ _ _ Hr) in Sc. cbn [as_obj bind] in Sc. rewrite (jget_at _ _ _ T0), (jget_at _ _ _ T1) in Sc. cbn [as_str bind] in Sc.
    rewrite Tt in Sc. cbn [bind] in Sc. change (py_nth [t0; t1] 0) with (Ok t0) in Sc. change (py_nth [t0; t1] 1) with (Ok t1) in Sc. cbn [bind] in Sc.
    assert (Mdp : splitting_entry (JObj o) "minimum_datapoints" 5 = Ok (s_points s)).
    { unfold splitting_entry. rewrite (jget_at _ _ _ Hs). destruct Mp as (v & Hv & Wv). rewrite (jget_at _ _ _ Hv). cbn [bind]. apply whole_read. exact Wv. }
    rewrite sset_other in Sc by discriminate. rewrite Hd, Mdp in Sc. cbn [bind as_arr] in Sc. unfold stored_sources in Sc.
    destruct (mapM _ _) as [d'|] eqn:Ed in Sc; [|discriminate]. cbn [bind] in Sc. injection Sc as <-.
    destruct (sources_again b (s_points s) d (s_loaders s) 0 d' Fl W) as (Len & A1 & A2 & ls' & A3 & A4 & A5).
    { intros i l H. apply R; auto. } { exact Ed. }
    set (r' := sset (sset r "start_time" (JStr t0)) "end_time" (JStr t1)) in *.
    set (o1 := sset o "region" (JObj r')). set (o' := sset o1 "data_sources" (JArr d')).
    set (s' := mkSettings (s_lat_min s) (s_lat_max s) (s_long_min s) (s_long_max s) t0 t1 (s_width s) (s_height s) (s_depth s) (s_points s) ls').
    assert (Gr : sget o' "region" = Some (JObj r')) by (unfold o', o1; rewrite sset_other, sget_sset by discriminate; reflexivity).
    assert (Gd : sget o' "data_sources" = Some (JArr d')) by (unfold o'; rewrite sget_sset; reflexivity).
    assert (Gs : sget o' "splitting" = Some (JObj p)) by (unfold o', o1; rewrite !sset_other by discriminate; exact Hs).
    assert (Rs' : region_says r' s').
    { unfold region_says, r', s'. cbn [s_lat_min s_lat_max s_long_min s_long_max s_start s_end s_width s_height].
      repeat match goal with |- _ /\ _ => split end;
        try (apply number_sset; [discriminate|]; apply number_sset; [discriminate|]; assumption).
      - unfold text_at. rewrite sset_other, sget_sset by discriminate. reflexivity.
      - unfold text_at. rewrite sget_sset. reflexivity.
      - intros k v I. apply (in_map fst) in I. cbn [fst] in I. apply PipeProofs.sset_keys in I as [->|I]; [cbn; tauto|].
        apply PipeProofs.sset_keys in I as [->|I]; [cbn; tauto|].
        apply in_map_iff in I as ((x0 & v0) & E & I). cbn in E. subst x0. apply (Rk _ _ I). }
    assert (Sy' : says (JObj o') s').
    { exists o', r', d', p. split; [reflexivity|]. split; [exact Gr|]. split; [exact Rs'|]. split; [exact Gd|]. split; [exact A3|].
      split; [exact Gs|]. split; [exact Dp|]. split; [exact Mp|exact Ok_]. }
    split.
    2:{ exists b, s'. split; [reflexivity|]. split; [exact Sy'|]. split; [repeat split|]. split; [exact P0|]. split; [exact P1|]. split; [exact A4|].
        intros k l H. destruct (A5 k l H) as (cls & q & C & N). cbn [Nat.add] in N. eauto. }
    assert (V' : validate_mesh_config files' (JObj o') = Ok tt).
    { apply (validate_says files' _ s' Sy'). destruct Acc as (_ & _ & Acc). split; [exact Ac0|]. split; [exact Ac1|exact Acc]. }
    assert (Fb' : from_json pad now' (JObj o') = Ok b).
    { rewrite (from_json_form now' _ s' Sy'). cbn [s_start s_end s_lat_min s_lat_max s_long_min s_long_max s']. rewrite Tt'. cbn [bind]. symmetry. exact Fj. }
    assert (Se : forall k dd, splitting_entry (JObj o') k dd = splitting_entry (JObj o) k dd).
    { intros k dd. unfold splitting_entry. rewrite (jget_at _ _ _ Gs), (jget_at _ _ _ Hs). reflexivity. }
    assert (Me : forall mdp, splitting_entry (JObj o) "minimum_datapoints" 5 = Ok mdp ->
       initialize_meta_data glob' ft con' (JObj o') b mdp = initialize_meta_data glob ft con (JObj o) b mdp).
    { intros mdp E. rewrite Mdp in E. injection E as <-. unfold initialize_meta_data. rewrite (jget_at _ _ _ Gd), (jget_at _ _ _ Hd). cbn [as_arr bind]. exact A1. }
    assert (Ge : generate files' pad now' glob' ft con' fuel (JObj o') = Ok em).
    { rewrite <- G. unfold generate, mesh_builder_init. rewrite V, V', Fb, Fb'. cbn [bind].
      rewrite (says_width _ _ Sy), (says_height _ _ Sy), (says_width _ _ Sy'), (says_height _ _ Sy'). cbn [bind s_width s_height s'].
      rewrite !Se, Mdp. destruct (validate_bounds b (s_width s) (s_height s)); [|reflexivity]. cbn [bind].
      destruct (initialize_bounds b (s_width s) (s_height s)); [|reflexivity]. cbn [bind]. rewrite (Me _ Mdp). reflexivity. }
    unfold build. rewrite Ge. cbn [bind]. unfold stored_config. rewrite Fb'. cbn [bind as_obj]. rewrite (jget_at _ _ _ Gr). cbn [bind as_obj].
    destruct Rs' as (_ & _ & _ & _ & T0' & T1' & _). rewrite (jget_at _ _ _ T0'), (jget_at _ _ _ T1'). cbn [as_str bind].
    cbn [s_start s_end s']. rewrite Tt'. cbn [bind]. change (py_nth [t0; t1] 0) with (Ok t0). change (py_nth [t0; t1] 1) with (Ok t1). cbn [bind].
    rewrite (sset_same r' "start_time" (JStr t0)) by exact T0'. rewrite (sset_same r' "end_time" (JStr t1)) by exact T1'.
    rewrite (sset_same o' "region" (JObj r') Gr), Gd, Se, Mdp. cbn [bind as_arr]. unfold stored_sources. rewrite A2. cbn [bind].
    rewrite (sset_same o' "data_sources" (JArr d') Gd). reflexivity.
  Qed.
End Again.

(** ** Other entries of the configuration are not looked at *)
Lemma stored_other pad now glob lf o k x c s : says (JObj o) s -> ~ In k ["region"; "data_sources"; "splitting"] ->
  stored_config pad now glob lf (JObj o) = Ok c -> c = JObj o -> stored_config pad now glob lf (JObj (sset o k x)) = Ok (JObj (sset o k x)).
Proof.
  intros Sy N E ->. pose proof Sy as (o' & r & d & p & [= <-] & Hr & Rs & Hd & Fl & Hs & Dp & Mp & Ok_).
  assert (N1 : "region" <> k) by (intros <-; apply N; cbn; auto). assert (N2 : "data_sources" <> k) by (intros <-; apply N; cbn; auto).
  assert (N3 : "splitting" <> k) by (intros <-; apply N; cbn; auto).
  assert (Gr : sget (sset o k x) "region" = Some (JObj r)) by (rewrite sset_other; auto).
  assert (Gd : sget (sset o k x) "data_sources" = Some (JArr d)) by (rewrite sset_other; auto).
  assert (Gs : sget (sset o k x) "splitting" = Some (JObj p)) by (rewrite sset_other; auto).
  assert (Sy' : says (JObj (sset o k x)) s).
  { do 4 eexists. split; [reflexivity|]. split; [exact Gr|]. split; [exact Rs|]. split; [exact Gd|]. split; [exact Fl|]. split; [exact Gs|]. auto. }
  pose proof (from_json_form pad now _ s Sy) as F1. rewrite <- (from_json_form pad now _ s Sy') in F1.
  destruct Rs as (_ & _ & _ & _ & T0 & T1 & _).
  unfold stored_config in E |- *. rewrite <- F1. destruct (from_json pad now (JObj o)) as [b|]; [|discriminate]. cbn [bind as_obj] in E |- *.
  rewrite (jget_at _ _ _ Hr) in E. rewrite (jget_at _ _ _ Gr). cbn [bind as_obj] in E |- *.
  rewrite (jget_at _ _ _ T0), (jget_at _ _ _ T1) in *. cbn [bind as_str] in E |- *.
  destruct (time_texts pad now [s_start s; s_end s]) as [l|]; [|discriminate]. cbn [bind] in E |- *.
  destruct (py_nth l 0) as [t0|]; [|discriminate]. cbn [bind] in E |- *. destruct (py_nth l 1) as [t1|]; [|discriminate]. cbn [bind] in E |- *.
  rewrite sset_other in E |- * by discriminate. rewrite Hd in E. rewrite Gd. cbn [as_arr] in E |- *.
  assert (Se : splitting_entry (JObj (sset o k x)) "minimum_datapoints" 5 = splitting_entry (JObj o) "minimum_datapoints" 5).
  { unfold splitting_entry. rewrite (jget_at _ _ _ Gs), (jget_at _ _ _ Hs). reflexivity. }
  rewrite Se. destruct (splitting_entry (JObj o) "minimum_datapoints" 5) as [mdp|]; [|discriminate]. cbn [bind] in E |- *.
  destruct (stored_sources glob lf b mdp d) as [d'|]; [|discriminate]. cbn [bind] in E |- *. injection E as E.
  assert (E1 : sset (sset r "start_time" (JStr t0)) "end_time" (JStr t1) = r).
  { assert (X : sget (sset (sset o "region" (JObj (sset (sset r "start_time" (JStr t0)) "end_time" (JStr t1)))) "data_sources" (JArr d')) "region" = sget o "region") by (rewrite E; reflexivity).
    rewrite sset_other, sget_sset, Hr in X by discriminate. cbn in X. congruence. }
  assert (E2 : d' = d).
  { assert (X : sget (sset (sset o "region" (JObj (sset (sset r "start_time" (JStr t0)) "end_time" (JStr t1)))) "data_sources" (JArr d')) "data_sources" = sget o "data_sources") by (rewrite E; reflexivity).
    rewrite sget_sset, Hd in X. cbn in X. congruence. }
  rewrite E1, E2, (sset_same _ _ _ Gr), (sset_same _ _ _ Gd). reflexivity.
Qed.
Lemma generate_other files pad now glob ft con fuel o k x s em : says (JObj o) s -> ~ In k ["region"; "data_sources"; "splitting"] ->
  generate files pad now glob ft con fuel (JObj o) = Ok em -> generate files pad now glob ft con fuel (JObj (sset o k x)) = Ok em.
Proof.
  intros Sy N G. pose proof Sy as (o' & r & d & p & [= <-] & Hr & Rs & Hd & Fl & Hs & Dp & Mp & Ok_).
  assert (N1 : "region" <> k) by (intros <-; apply N; cbn; auto). assert (N2 : "data_sources" <> k) by (intros <-; apply N; cbn; auto).
  assert (N3 : "splitting" <> k) by (intros <-; apply N; cbn; auto).
  assert (Gr : sget (sset o k x) "region" = Some (JObj r)) by (rewrite sset_other; auto).
  assert (Gd : sget (sset o k x) "data_sources" = Some (JArr d)) by (rewrite sset_other; auto).
  assert (Gs : sget (sset o k x) "splitting" = Some (JObj p)) by (rewrite sset_other; auto).
  assert (Sy' : says (JObj (sset o k x)) s).
  { do 4 eexists. split; [reflexivity|]. split; [exact Gr|]. split; [exact Rs|]. split; [exact Gd|]. split; [exact Fl|]. split; [exact Gs|]. auto. }
  pose proof (from_json_form pad now _ s Sy) as F1. rewrite <- (from_json_form pad now _ s Sy') in F1.
  rewrite <- G. unfold generate, mesh_builder_init in *.
  destruct (validate_mesh_config files (JObj o)) as [[]|] eqn:V; [|discriminate].
  assert (V' : validate_mesh_config files (JObj (sset o k x)) = Ok tt).
  { apply (validate_says files _ s Sy'). apply (validate_says files _ s Sy). exact V. }
  rewrite V', <- F1. cbn [bind]. destruct (from_json pad now (JObj o)) as [b|]; [|reflexivity]. cbn [bind].
  rewrite (says_width _ _ Sy), (says_height _ _ Sy), (says_width _ _ Sy'), (says_height _ _ Sy'). cbn [bind].
  destruct (validate_bounds b (s_width s) (s_height s)); [|reflexivity]. cbn [bind].
  destruct (initialize_bounds b (s_width s) (s_height s)); [|reflexivity]. cbn [bind].
  assert (Se : forall kk dd, splitting_entry (JObj (sset o k x)) kk dd = splitting_entry (JObj o) kk dd).
  { intros kk dd. unfold splitting_entry. rewrite (jget_at _ _ _ Gs), (jget_at _ _ _ Hs). reflexivity. }
  rewrite !Se. destruct (splitting_entry (JObj o) "minimum_datapoints" 5) as [mdp|]; [|reflexivity]. cbn [bind].
  assert (Me : initialize_meta_data glob ft con (JObj (sset o k x)) b mdp = initialize_meta_data glob ft con (JObj o) b mdp).
  { unfold initialize_meta_data. rewrite (jget_at _ _ _ Gd), (jget_at _ _ _ Hd). reflexivity. }
  rewrite Me. reflexivity.
Qed.
Theorem merged_rebuilt files pad now glob ft con lf fuel c em s c2 c3 : says c s ->
  build files pad now glob ft con lf fuel c = Ok (em, c) -> merged_config c c2 = Ok c3 ->
  build files pad now glob ft con lf fuel c3 = Ok (em, c3).
Proof.
  intros Sy B M. destruct Sy as (o & r & d & p & -> & Sy). unfold merged_config in M. cbn [as_obj bind] in M.
  destruct (match sget o "merged" with Some l => as_arr l | None => Ok [] end) as [l|]; [|discriminate]. cbn [bind] in M. injection M as <-.
  assert (Sy' : says (JObj o) s) by (exists o, r, d, p; auto). unfold build in B |- *.
  destruct (generate files pad now glob ft con fuel (JObj o)) as [em0|] eqn:G; [|discriminate]. cbn [bind] in B.
  destruct (stored_config pad now glob lf (JObj o)) as [c0|] eqn:Sc; [|discriminate]. cbn [bind] in B. injection B as -> ->.
  assert (N : ~ In "merged" ["region"; "data_sources"; "splitting"]) by (cbn; intuition discriminate).
  rewrite (generate_other _ _ _ _ _ _ _ _ _ _ _ _ Sy' N G). cbn [bind]. rewrite (stored_other _ _ _ _ _ _ _ _ _ Sy' N Sc eq_refl). reflexivity.
Qed.
Lemma with_files_replaced p v : files_replaced p v (with_files p v).
Proof.
  rewrite swap_with. split; [apply swap_keys|]. split; [intros k N; apply sget_swap; exact N|].
  intros N. rewrite sget_swap_files. apply given_some in N. rewrite N. reflexivity.
Qed.
Lemma called_plain glob mdp name p cls p2 : one_way (name, p) -> called glob mdp name p = Ok (cls, p2) ->
  sget p2 "file" = None /\ sget p2 "folder" = None.
Proof.
  intros W C.
  unfold called in C. destruct (get_dataloader glob name p mdp) as [[c p1]|] eqn:F; [|discriminate]. cbn [bind fst snd] in C.
  destruct (add_default_params c p1) as [q2|] eqn:A; [|discriminate]. cbn [bind] in C. injection C as -> ->.
  rewrite (defaults_untouched _ _ _ "file" ltac:(cbn; tauto) A), (defaults_untouched _ _ _ "folder" ltac:(cbn; tauto) A).
  unfold get_dataloader in F. destruct (translate_file_input glob p) as [q|] eqn:T; [|discriminate]. cbn [bind] in F.
  destruct (sget requirements (lower name)) as [[c req]|]; [|discriminate]. destruct (forallb _ req); [|discriminate]. injection F as -> <-.
  rewrite !sget_sset. cbn [String.eqb Ascii.eqb Bool.eqb]. destruct W as (D & W). cbn [snd] in D, W.
  destruct (translate_spec glob p q D T) as (_ & Nf & X). split; [exact Nf|].
  destruct (sget p "file") eqn:Fi; [destruct W as [W|W]; [discriminate|]; rewrite W in X; tauto|].
  destruct (sget p "folder") eqn:Fp; [destruct X as (? & _ & _ & X); exact X|]. subst q. exact Fp.
Qed.
Lemma sources_stored glob lf b mdp : forall d ls k d', Forall2 loader_says d ls ->
  mapM (fun kj => stored_source glob lf b mdp (fst kj) (snd kj)) (combine (seq k (List.length d)) d) = Ok d' ->
  exists ls', Forall2 loader_says d' ls' /\ map fst ls' = map fst ls /\
    forall i l, nth_error ls i = Some l -> exists cls p, called glob mdp (fst l) (snd l) = Ok (cls, p) /\
      nth_error ls' i = Some (fst l, with_files p (lf (k + i)%nat cls p b)).
Proof.
  induction d as [|j d IH]; intros ls k d' F E.
  - inversion F; subst. cbn in E. injection E as <-. exists []. repeat split; auto. intros i l H. destruct i; discriminate.
  - inversion F as [|? l ? ls0 L F0]; subst. cbn [List.length seq combine mapM fst snd] in E.
    destruct (stored_source glob lf b mdp k j) as [j'|] eqn:J; [|discriminate]. cbn [bind] in E.
    destruct (mapM _ _) as [d0|] eqn:E0 in E; [|discriminate]. cbn [bind] in E. injection E as <-.
    destruct (IH ls0 (S k) d0 F0 E0) as (ls' & B3 & B4 & B5). destruct L as (o & -> & Hn & Hp & Ho).
    unfold stored_source in J. rewrite (jget_at _ _ _ Hn), (jget_at _ _ _ Hp) in J. cbn [bind as_str as_obj] in J.
    destruct (called glob mdp (fst l) (snd l)) as [[cls p]|] eqn:C; [|discriminate]. cbn [bind fst snd] in J. injection J as <-.
    exists ((fst l, with_files p (lf k cls p b)) :: ls'). split; [constructor; auto|split; [cbn; f_equal; exact B4|]].
    + eexists. split; [reflexivity|]. cbn [fst snd]. split; [unfold text_at; rewrite sset_other by discriminate; exact Hn|].
      split; [rewrite sget_sset; reflexivity|].
      intros x v I. apply (in_map fst) in I. cbn [fst] in I. apply PipeProofs.sset_keys in I as [->|I]; [cbn; auto|].
      apply in_map_iff in I as ((x0 & v0) & E & I). cbn in E. subst x0. apply (Ho _ _ I).
    + intros [|i] l0 H; cbn [nth_error] in *.
      * injection H as <-. rewrite Nat.add_0_r. eauto.
      * rewrite <- Nat.add_succ_comm. apply B5. exact H.
Qed.
Theorem file_says files pad now glob ft con lf fuel cfg em c s :
  build files pad now glob ft con lf fuel cfg = Ok (em, c) ->
  says cfg s -> year_ok (today_of now) -> Forall one_way (s_loaders s) ->
  exists b s', from_json pad now cfg = Ok b /\ says c s' /\ same_grid s s' /\
    parse_datetime pad now (s_start s) = Ok (s_start s') /\ parse_datetime pad now (s_end s) = Ok (s_end s') /\
    (forall now', from_json pad now' c = Ok b) /\
    map fst (s_loaders s') = map fst (s_loaders s) /\
    forall k name p0, nth_error (s_loaders s) k = Some (name, p0) ->
      exists cls p q, called glob (s_points s) name p0 = Ok (cls, p) /\ nth_error (s_loaders s') k = Some (name, q) /\
        files_replaced p (lf k cls p b) q /\ sget q "file" = None /\ sget q "folder" = None.
Proof.
  intros B Sy T W. unfold build in B. destruct (generate files pad now glob ft con fuel cfg) as [em0|] eqn:G; [|discriminate]. cbn [bind] in B.
  destruct (stored_config pad now glob lf cfg) as [c0|] eqn:Sc; [|discriminate]. cbn [bind] in B. injection B as -> ->.
  pose proof (from_json_form pad now cfg s Sy) as Fj.
  unfold stored_config in Sc. destruct (from_json pad now cfg) as [b|] eqn:Fb; [|discriminate]. cbn [bind] in Sc.
  destruct (time_texts pad now [s_start s; s_end s]) as [l|] eqn:Tt; [|discriminate]. cbn [bind] in Fj.
  destruct (texts_parts pad now _ _ _ Tt) as (t0 & t1 & -> & P0 & P1).
  pose proof Sy as (o & r & d & p & -> & Hr & Rs & Hd & Fl & Hs & Dp & Mp & Ok_).
  pose proof Rs as (Q1 & Q2 & Q3 & Q4 & T0 & T1 & Q5 & Q6 & Rk).
  cbn [as_obj bind] in Sc. rewrite (jget_at _ _ _ Hr) in Sc. cbn [as_obj bind] in Sc. rewrite (jget_at _ _ _ T0), (jget_at _ _ _ T1) in Sc. cbn [as_str bind] in Sc.
  rewrite Tt in Sc. cbn [bind] in Sc. change (py_nth [t0; t1] 0) with (Ok t0) in Sc. change (py_nth [t0; t1] 1) with (Ok t1) in Sc. cbn [bind] in Sc.
  assert (Mdp : splitting_entry (JObj o) "minimum_datapoints" 5 = Ok (s_points s)).
  { unfold splitting_entry. rewrite (jget_at _ _ _ Hs). destruct Mp as (v & Hv & Wv). rewrite (jget_at _ _ _ Hv). cbn [bind]. apply whole_read. exact Wv. }
  rewrite sset_other in Sc by discriminate. rewrite Hd, Mdp in Sc. cbn [bind as_arr] in Sc. unfold stored_sources in Sc.
  destruct (mapM _ _) as [d'|] eqn:Ed in Sc; [|discriminate]. cbn [bind] in Sc. injection Sc as <-.
  destruct (sources_stored glob lf b (s_points s) d (s_loaders s) 0 d' Fl Ed) as (ls' & A3 & A4 & A5).
  set (r' := sset (sset r "start_time" (JStr t0)) "end_time" (JStr t1)) in *.
  set (o' := sset (sset o "region" (JObj r')) "data_sources" (JArr d')).
  set (s' := mkSettings (s_lat_min s) (s_lat_max s) (s_long_min s) (s_long_max s) t0 t1 (s_width s) (s_height s) (s_depth s) (s_points s) ls').
  assert (Rs' : region_says r' s').
  { unfold region_says, r', s'. cbn [s_lat_min s_lat_max s_long_min s_long_max s_start s_end s_width s_height].
    repeat match goal with |- _ /\ _ => split end;
      try (apply number_sset; [discriminate|]; apply number_sset; [discriminate|]; assumption).
    - unfold text_at. rewrite sset_other, sget_sset by discriminate. reflexivity.
    - unfold text_at. rewrite sget_sset. reflexivity.
    - intros k v I. apply (in_map fst) in I. cbn [fst] in I. apply PipeProofs.sset_keys in I as [->|I]; [cbn; tauto|].
      apply PipeProofs.sset_keys in I as [->|I]; [cbn; tauto|].
      apply in_map_iff in I as ((x0 & v0) & E & I). cbn in E. subst x0. apply (Rk _ _ I). }
  assert (Sy' : says (JObj o') s').
  { exists o', r', d', p. split; [reflexivity|]. unfold o'.
    split; [rewrite sset_other, sget_sset by discriminate; reflexivity|]. split; [exact Rs'|].
    split; [rewrite sget_sset; reflexivity|]. split; [exact A3|].
    split; [rewrite !sset_other by discriminate; exact Hs|]. split; [exact Dp|]. split; [exact Mp|exact Ok_]. }
  exists b, s'. split; [reflexivity|]. split; [exact Sy'|]. split; [repeat split|]. split; [exact P0|]. split; [exact P1|]. split; [|split; [exact A4|]].
  - intros now'. rewrite (from_json_form pad now' _ s' Sy'). cbn [s_start s_end s_lat_min s_lat_max s_long_min s_long_max s'].
    destruct (texts_again pad now now' _ _ t0 t1 T Tt) as (-> & _). cbn [bind]. symmetry. exact Fj.
  - intros k name p0 H. destruct (A5 k (name, p0) H) as (cls & q & C & N). cbn [fst snd Nat.add] in C, N.
    exists cls, q, (with_files q (lf k cls q b)). split; [exact C|]. split; [exact N|]. split; [apply with_files_replaced|].
    rewrite Forall_forall in W. pose proof (called_plain _ _ _ _ _ _ (W _ (nth_error_In _ _ H)) C) as (X1 & X2).
    rewrite swap_with, !sget_swap by discriminate. auto.
Qed.
Theorem merged_rebuilt_file files pad now glob ft con lf fuel c em s c2 c3 rest : says c s ->
  build files pad now glob ft con lf fuel c = Ok (em, c) -> merged_config c c2 = Ok c3 ->
  rebuild_mesh files pad now glob ft con lf fuel (mesh_file c3 rest) = Ok (em, c3).
Proof. intros. exact (merged_rebuilt files pad now glob ft con lf fuel c em s c2 c3 H H0 H1). Qed.

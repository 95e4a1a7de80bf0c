(** On a dyadic grid the computation in double precision is exact. *)
From Coq Require Import Floats.SpecFloat Qround Qpower Bool.
From Verif Require Import Base QLib Geo Graph Cell Builder Spec MeshSpec GlobeSpec GlobeProofs Invariant Grid Floats FloatGeo FloatArith FloatSpec.
Open Scope Z_scope.

(** ** The numbers that occur: multiples of 2^-k below 1024 *)
Definition lat (k : Z) (q : Q) : Prop := multiple k q /\ (-1024 < q < 1024)%Q.
Lemma lat_eq k q q' : (q == q')%Q -> lat k q -> lat k q'.
Proof. intros E [(z & Z) B]. split; [exists z; rewrite <- E; exact Z|rewrite <- E; exact B]. Qed.
Lemma pw_neg k : 0 <= k -> (pw (- k) * inject_Z (2 ^ k) == 1)%Q.
Proof. intros K. rewrite <- pw_Z by exact K. rewrite <- pw_add, Z.add_opp_diag_l. reflexivity. Qed.
Lemma lat_repr k q : 0 <= k <= 43 -> lat k q -> repr q.
Proof.
  intros K [(z & E) B]. apply (repr_eq (inject_Z z * pw (- k))); [symmetry; exact E|]. apply int_repr; [|lia].
  change (Qpower 2 (- k)) with (pw (- k)) in E. pose proof (pw_neg k (proj1 K)) as P. pose proof (pw_pos (- k)) as P0.
  assert (0 < 2 ^ k) as T by (apply Z.pow_pos_nonneg; lia).
  assert (0 < inject_Z (2 ^ k))%Q as TQ by (change 0%Q with (inject_Z 0); rewrite <- Zlt_Qlt; exact T).
  assert (q * inject_Z (2 ^ k) == inject_Z z)%Q as F.
  { rewrite E. transitivity (inject_Z z * (pw (- k) * inject_Z (2 ^ k)))%Q; [ring|]. rewrite P. ring. }
  assert (inject_Z z < 1024 * inject_Z (2 ^ k))%Q as U by (rewrite <- F; apply Qmult_lt_compat_r; [exact TQ|apply B]).
  assert (-1024 * inject_Z (2 ^ k) < inject_Z z)%Q as L by (rewrite <- F; apply Qmult_lt_compat_r; [exact TQ|apply B]).
  change 1024%Q with (inject_Z 1024) in U. change (-1024)%Q with (inject_Z (-1024)) in L. rewrite <- inject_Z_mult, <- Zlt_Qlt in U, L.
  assert (2 ^ k <= 2 ^ 43) by (apply Z.pow_le_mono_r; lia). change (2 ^ 53) with (1024 * 2 ^ 43). lia.
Qed.
Lemma multiple_add k a b : multiple k a -> multiple k b -> multiple k (a + b).
Proof. intros (z & E) (y & F). exists (z + y). rewrite E, F, inject_Z_plus. ring. Qed.
Lemma multiple_opp k a : multiple k a -> multiple k (- a).
Proof. intros (z & E). exists (- z). rewrite E, inject_Z_opp. ring. Qed.
Lemma multiple_sub k a b : multiple k a -> multiple k b -> multiple k (a - b).
Proof. intros A B. apply multiple_add; [exact A|apply multiple_opp, B]. Qed.
Lemma multiple_scale k a i : multiple k a -> multiple k (inject_Z i * a).
Proof. intros (z & E). exists (i * z). rewrite E, inject_Z_mult. ring. Qed.
Lemma multiple_int k z : 0 <= k -> multiple k (inject_Z z).
Proof. intros K. exists (z * 2 ^ k). rewrite inject_Z_mult. pose proof (pw_neg k K) as P. unfold pw in P. transitivity (inject_Z z * (Qpower 2 (- k) * inject_Z (2 ^ k)))%Q; [rewrite P; ring|ring]. Qed.
Lemma multiple_eq k a b : (a == b)%Q -> multiple k a -> multiple k b.
Proof. intros E (z & Z). exists z. rewrite <- E. exact Z. Qed.
Lemma multiple_half k a : multiple k a -> multiple (k + 1) (a / 2).
Proof.
  intros (z & E). exists z. rewrite E. replace (- (k + 1)) with (- k + -1) by lia. change (Qpower 2 (- k + -1)) with (pw (- k + -1)). rewrite pw_add.
  change (pw (-1)) with (1#2)%Q. unfold pw. field.
Qed.
Lemma multiple_mono k k' a : k <= k' -> multiple k a -> multiple k' a.
Proof.
  intros K (z & E). exists (z * 2 ^ (k' - k)). rewrite E. change (inject_Z z * pw (- k) == inject_Z (z * 2 ^ (k' - k)) * pw (- k'))%Q.
  symmetry. apply unscaled; [lia|]. f_equal. f_equal. lia.
Qed.
Lemma multiple_mod k a b : multiple k a -> multiple k b -> multiple k (qmod a b).
Proof.
  intros A B. unfold qmod. apply multiple_sub; [exact A|]. apply (multiple_eq k (inject_Z (Qfloor (a / b)) * b)); [ring|]. apply multiple_scale, B.
Qed.

(** An exact double. *)
Lemma double_isf x q k : 0 <= k <= 43 -> lat k q -> double x q -> isf x q.
Proof.
  intros K L [V (v & E & F)]. destruct x as [s| | |s n e]; try discriminate; cbn [fval] in E; injection E as <-.
  - cbn [isf]. symmetry. exact F.
  - assert ((if s then Zneg n else Zpos n) = cond_Zopp s (Zpos n)) as S by (destruct s; reflexivity). rewrite S, dyadic_pw in F.
    destruct (lat_repr k q K L) as (y & Y). destruct y as [t| | |t n' k']; cbn [isf] in Y; try contradiction.
    + exfalso. apply (mul_pw_nz (cond_Zopp s (Zpos n)) e); [apply cond_nz|]. rewrite F, Y. reflexivity.
    + destruct Y as [N Y]. cbn [valid_binary] in V. unfold bounded in V. apply andb_true_iff in V. destruct V as [C _].
      unfold canonical_mantissa in C. apply Zeq_bool_eq in C.
      assert (inject_Z (Zpos n) * pw e == inject_Z (Zpos n') * pw k')%Q as M.
      { rewrite Y, !cond_value in F. pose proof (mag_pos n e). pose proof (mag_pos n' k'). destruct s, t; lra. }
      assert (e = k' /\ n = n') as [-> ->].
      { destruct (Z.le_gt_cases e k') as [G|G].
        - pose proof (scaled _ _ _ _ M G) as H. rewrite (fexp_norm n' k' n e N G H) in C. split; [lia|]. rewrite C, Z.sub_diag in H. lia.
        - assert (Zpos n' = Zpos n * 2 ^ (e - k')) as H by (apply scaled; [symmetry; exact M|lia]). exfalso.
          assert (Zpos (digits2_pos n) + e = 53 + k') as D.
          { pose proof (digits_bounds n) as B. set (d := Zpos (digits2_pos n)) in *. assert (0 < d) by (unfold d; lia).
            assert (Zpos (digits2_pos n') = d + (e - k')).
            { apply digits_spec; [lia|]. rewrite H. replace (d + (e - k') - 1) with (d - 1 + (e - k')) by lia. rewrite !Z.pow_add_r by lia.
              assert (0 < 2 ^ (e - k')) by (apply Z.pow_pos_nonneg; lia). nia. }
            assert (Zpos (digits2_pos n') = 53) by (apply digits_spec; [lia|apply N]). lia. }
          rewrite D in C. destruct N as [_ N]. unfold fexp, emin in C. lia. }
      split; [exact N|]. rewrite <- F. reflexivity.
Qed.
Lemma isf_double x q : isf x q -> double x q.
Proof.
  intros X. split; [|apply isf_means, X]. destruct x as [s| | |s n k]; try reflexivity. destruct X as [N _]. cbn [valid_binary]. unfold bounded, canonical_mantissa.
  rewrite (fexp_norm n k n k N (Z.le_refl k)) by (rewrite Z.sub_diag, Z.mul_1_r; reflexivity). unfold Zeq_bool. rewrite Z.compare_refl.
  destruct N as [_ N]. apply andb_true_iff. split; [reflexivity|apply Z.leb_le; lia].
Qed.

Section Lattice.
Context (k : Z) (K : 0 <= k <= 43).
(** exact and on the grid *)
Definition ex (x : f64) (q : Q) : Prop := isf x q /\ lat k q.
Lemma ex_add x y a b : ex x a -> ex y b -> (-1024 < a + b < 1024)%Q -> ex (fadd x y) (a + b).
Proof. intros [X A] [Y B] R. assert (lat k (a + b)) as L by (split; [apply multiple_add; [apply A|apply B]|exact R]). split; [|exact L]. apply isf_add; [exact X|exact Y|exact (lat_repr k _ K L)]. Qed.
Lemma ex_sub x y a b : ex x a -> ex y b -> (-1024 < a - b < 1024)%Q -> ex (fsub x y) (a - b).
Proof. intros [X A] [Y B] R. assert (lat k (a - b)) as L by (split; [apply multiple_sub; [apply A|apply B]|exact R]). split; [|exact L]. apply isf_sub; [exact X|exact Y|exact (lat_repr k _ K L)]. Qed.
Lemma ex_int z : -1024 < z < 1024 -> ex (fint z) (inject_Z z).
Proof.
  intros Z. split; [apply isf_int; lia|]. split; [apply multiple_int; lia|]. change (-1024)%Q with (inject_Z (-1024)). change 1024%Q with (inject_Z 1024). rewrite <- !Zlt_Qlt. exact Z.
Qed.
Lemma ex_eq x a b : (a == b)%Q -> ex x a -> ex x b.
Proof. intros E [X A]. split; [exact (isf_eq x a b E X)|exact (lat_eq k a b E A)]. Qed.
Lemma ex_mod x y a b : ex x a -> ex y b -> (0 < b)%Q -> ex (py_mod x y) (qmod a b).
Proof.
  intros [X A] [Y B] P. assert (0 <= qmod a b < b)%Q as R.
  { unfold qmod. pose proof (Qfloor_le (a / b)) as F1. pose proof (Qlt_floor (a / b)) as F2. rewrite inject_Z_plus in F2. change (inject_Z 1) with 1%Q in F2.
    assert (a == b * (a / b))%Q as D by (field; lra). set (f := inject_Z (Qfloor (a / b))) in *. set (t := (a / b)%Q) in *. clearbody f t.
    assert (0 <= b * (t - f))%Q by (apply Qmult_le_0_compat; lra). assert (0 < b * (f + 1 - t))%Q by (apply Qmult_lt_0_compat; lra). split; lra. }
  destruct B as [MB RB]. assert (lat k (qmod a b)) as L by (split; [apply multiple_mod; [apply A|exact MB]|lra]).
  assert (lat k (qmod a b - b)) as L' by (split; [apply multiple_sub; [apply L|exact MB]|lra]).
  split; [|exact L]. apply isf_mod; [exact X|exact Y|exact P|exact (lat_repr k _ K L)|exact (lat_repr k _ K L')].
Qed.
Lemma ex_lt x y a b : ex x a -> ex y b -> flt x y = qltb a b.
Proof. intros [X _] [Y _]. exact (isf_lt x y a b X Y). Qed.
Lemma ex_le x y a b : ex x a -> ex y b -> fle x y = qleb a b.
Proof. intros [X _] [Y _]. exact (isf_le x y a b X Y). Qed.
Lemma ex_eqb x y a b : ex x a -> ex y b -> feq x y = qeqb a b.
Proof. intros [X _] [Y _]. exact (isf_eqb x y a b X Y). Qed.
Lemma ex_abs x a : ex x a -> ex (fabs x) (qabs a).
Proof.
  intros [X [M R]]. split; [apply isf_abs, X|]. unfold qabs. split; [destruct (qltb a 0); [apply multiple_opp|]; exact M|].
  destruct (qltb a 0) eqn:E; qhyp; lra.
Qed.
Lemma ex_domain x a : ex x a -> (-800 < a < 800)%Q -> ex (f_domain x) (longitude_domain a).
Proof.
  intros X R. unfold f_domain, longitude_domain. rewrite (ex_eqb _ _ _ _ X (ex_int (-180) ltac:(lia))), (ex_eqb _ _ _ _ X (ex_int 180 ltac:(lia))).
  change (inject_Z (-180)) with (-180)%Q. change (inject_Z 180) with 180%Q. destruct (qeqb a (-180) || qeqb a 180); [exact X|].
  assert (ex (fadd x (fint 180)) (a + 180)) as X1 by (apply (ex_add _ _ _ (inject_Z 180)); [exact X|apply ex_int; lia|change (inject_Z 180) with 180%Q; lra]).
  assert (ex (py_mod (fadd x (fint 180)) (fint 360)) (qmod (a + 180) 360)) as X2 by (apply ex_mod; [exact X1|exact (ex_int 360 ltac:(lia))|reflexivity]).
  destruct (qmod_360 (a + 180)) as [B _]. apply (ex_sub _ _ _ (inject_Z 180)); [exact X2|apply ex_int; lia|change (inject_Z 180) with 180%Q; lra].
Qed.

(** ** Boundaries *)
Definition exb (x : fboundary) (b : boundary) : Prop :=
  ex (flat_min x) (lat_min b) /\ ex (flat_max x) (lat_max b) /\ ex (flong_min x) (long_min b) /\ ex (flong_max x) (long_max b).
Definition good (b : boundary) : Prop := on_globe b /\ times_ok (time_range b).
Lemma ex_height x b : exb x b -> good b -> ex (f_height x) (get_height b).
Proof. intros (A & B & _) [G _]. unfold on_globe in G. unfold get_height. apply ex_sub; [exact B|exact A|lra]. Qed.
Lemma width_range b : good b -> (0 <= get_width b <= 360)%Q.
Proof. intros [G _]. unfold on_globe in G. unfold get_width. qsplit; lra. Qed.
Lemma ex_width x b : exb x b -> good b -> ex (f_width x) (get_width b).
Proof.
  intros (_ & _ & C & D) [G _]. unfold on_globe in G. unfold f_width, get_width. rewrite (ex_lt _ _ _ _ C D).
  destruct (qltb (long_min b) (long_max b)) eqn:E; qhyp; [apply ex_sub; [exact D|exact C|lra]|].
  change 180%Q with (inject_Z 180). assert (inject_Z 180 == 180)%Q as I by reflexivity. apply ex_add.
  - apply ex_sub; [apply ex_int; lia|exact C|lra].
  - apply ex_add; [exact D|apply ex_int; lia|lra].
  - lra.
Qed.
Lemma ex_boundary la lb oa ob qa qb pa pb t : ex la qa -> ex lb qb -> ex oa pa -> ex ob pb -> times_ok t ->
  (qa <= qb)%Q -> (-180 <= pa)%Q -> (pb <= 180)%Q ->
  FBoundary la lb oa ob = Ok (mkF la lb oa ob) /\ Boundary [qa; qb] [pa; pb] t = Ok (mkB qa qb pa pb t).
Proof.
  intros A B C D T H1 H2 H3. unfold FBoundary. rewrite (ex_lt _ _ _ _ B A), (ex_lt _ _ _ _ C (ex_int (-180) ltac:(lia))), (ex_lt _ _ _ _ (ex_int 180 ltac:(lia)) D).
  change (inject_Z (-180)) with (-180)%Q. change (inject_Z 180) with 180%Q. unfold Boundary.
  assert (qltb qb qa = false) as -> by (apply qltb_false; exact H1). assert (qltb pa (-180) = false) as -> by (apply qltb_false; exact H2).
  assert (qltb 180 pb = false) as -> by (apply qltb_false; exact H3). cbn [orb]. split; [reflexivity|].
  destruct T as [->|(t0 & t1 & -> & T)]; [reflexivity|]. assert ((t1 <? t0) = false) as -> by (apply Z.ltb_ge; exact T). reflexivity.
Qed.

(** ** Neighbour cases *)
Lemma exact_case x y a b glob : exb x a -> exb y b -> good a -> good b -> f_case glob x y = get_neighbour_case glob a b.
Proof.
  intros X Y Ga Gb. pose proof (ex_width x a X Ga) as Wx. pose proof (ex_width y b Y Gb) as Wy. pose proof (ex_height x a X Ga) as Hx. pose proof (ex_height y b Y Gb) as Hy.
  pose proof (width_range a Ga) as Ra. pose proof (width_range b Gb) as Rb. destruct X as (X1 & X2 & X3 & X4), Y as (Y1 & Y2 & Y3 & Y4).
  destruct Ga as [Ga _], Gb as [Gb _]. unfold on_globe in Ga, Gb.
  assert (ex (fadd (flong_min x) (f_width x)) (long_min a + get_width a)) as Ea by (apply ex_add; [exact X3|exact Wx|lra]).
  assert (ex (fadd (flong_min y) (f_width y)) (long_min b + get_width b)) as Eb by (apply ex_add; [exact Y3|exact Wy|lra]).
  assert (ex (fadd (flat_min x) (f_height x)) (lat_min a + get_height a)) as Na by (apply ex_add; [exact X1|exact Hx|unfold get_height; lra]).
  assert (ex (fadd (flat_min y) (f_height y)) (lat_min b + get_height b)) as Nb by (apply ex_add; [exact Y1|exact Hy|unfold get_height; lra]).
  pose proof (ex_abs _ _ X3) as Aa. pose proof (ex_abs _ _ Y3) as Ab.
  unfold f_case, get_neighbour_case, f_on_bound, on_global_bound, f_case_global, f_case_bounds, get_global_mesh_neighbour_case, get_neighbour_case_bounds. cbv zeta.
  set (ea := fadd (flong_min x) (f_width x)) in *. set (eb := fadd (flong_min y) (f_width y)) in *.
  set (na := fadd (flat_min x) (f_height x)) in *. set (nb := fadd (flat_min y) (f_height y)) in *.
  rewrite (ex_eqb _ _ _ _ X3 (ex_int (-180) ltac:(lia))), (ex_eqb _ _ _ _ Y4 (ex_int 180 ltac:(lia))), (ex_eqb _ _ _ _ Y3 (ex_int (-180) ltac:(lia))), (ex_eqb _ _ _ _ X4 (ex_int 180 ltac:(lia))).
  change (inject_Z (-180)) with (-180)%Q. change (inject_Z 180) with 180%Q.
  rewrite (ex_eqb _ _ _ _ Ea Ab), (ex_eqb _ _ _ _ Na Y1), (ex_lt _ _ _ _ Y1 Na), (ex_lt _ _ _ _ X1 Nb), (ex_eqb _ _ _ _ X1 Nb), (ex_eqb _ _ _ _ Nb X1),
    (ex_lt _ _ _ _ X3 Eb), (ex_lt _ _ _ _ Y3 Ea), (ex_eqb _ _ _ _ Aa Eb), (ex_eqb _ _ _ _ Eb Aa), (ex_eqb _ _ _ _ Y1 Na), (ex_eqb _ _ _ _ Ea Y3),
    (ex_eqb _ _ _ _ X3 Eb), (ex_eqb _ _ _ _ Eb X3). reflexivity.
Qed.

(** ** The grid *)
Lemma ex_arange x y s a b c n : ex x a -> ex y b -> ex s c -> (0 < c)%Q -> 0 <= n -> (b - a == inject_Z n * c)%Q -> (-200 < a < 200 /\ -200 < b < 600 /\ c <= 400)%Q ->
  Forall2 ex (f_arange x y s) (arange a b c).
Proof.
  intros X Y S P N E R. rewrite (arange_exact a b c n P E).
  assert (n < 2 ^ 53) as N1.
  { destruct S as [_ [(z & Z) _]]. change (Qpower 2 (- k)) with (pw (- k)) in Z. pose proof (pw_pos (- k)) as Pk. pose proof (pw_neg k (proj1 K)) as Pn.
    assert (1 <= z) as Z1. { assert (0 < z); [|lia]. rewrite Zlt_Qlt. change (inject_Z 0) with 0%Q. apply Qnot_le_lt. intros L. assert (inject_Z z * pw (- k) <= 0)%Q by nra. lra. }
    assert (pw (- k) <= c)%Q as C. { rewrite Z. assert (1 <= inject_Z z)%Q by (change 1%Q with (inject_Z 1); rewrite <- Zle_Qle; exact Z1). nra. }
    assert (0 <= inject_Z n)%Q as N0 by (change 0%Q with (inject_Z 0); rewrite <- Zle_Qle; exact N).
    assert (inject_Z n * pw (- k) < 1024)%Q as B. { assert (inject_Z n * pw (- k) <= inject_Z n * c)%Q by nra. lra. }
    assert (0 < inject_Z (2 ^ k))%Q as T by (change 0%Q with (inject_Z 0); rewrite <- Zlt_Qlt; apply Z.pow_pos_nonneg; lia).
    assert (inject_Z n < 1024 * inject_Z (2 ^ k))%Q as U. { apply (Qmult_lt_compat_r _ _ _ T) in B. assert (inject_Z n * pw (- k) * inject_Z (2 ^ k) == inject_Z n)%Q by (transitivity (inject_Z n * (pw (- k) * inject_Z (2 ^ k)))%Q; [ring|rewrite Pn; ring]). lra. }
    change 1024%Q with (inject_Z 1024) in U. rewrite <- inject_Z_mult, <- Zlt_Qlt in U. assert (2 ^ k <= 2 ^ 43) by (apply Z.pow_le_mono_r; lia). change (2 ^ 53) with (1024 * 2 ^ 43). lia. }
  assert (forall i, (i < Z.to_nat n)%nat -> 0 <= inject_Z (Z.of_nat i) /\ inject_Z (Z.of_nat i) * c <= b - a)%Q as I.
  { intros i L. assert (0 <= inject_Z (Z.of_nat i))%Q by (change 0%Q with (inject_Z 0); rewrite <- Zle_Qle; lia).
    assert (inject_Z (Z.of_nat i) <= inject_Z n)%Q by (rewrite <- Zle_Qle; lia). split; [assumption|]. rewrite E. apply Qmult_le_compat_r; lra. }
  assert (ex (fsub y x) (b - a)) as D by (apply ex_sub; [exact Y|exact X|lra]).
  assert (isf (fdiv (fsub y x) s) (inject_Z n)) as Q.
  { apply (isf_eq _ ((b - a) / c)); [rewrite E; field; lra|]. apply isf_div; [apply D|apply S|lra|].
    apply (repr_eq (inject_Z n * pw 0)); [change (pw 0) with 1%Q; rewrite E; field; lra|]. apply int_repr; lia. }
  assert (exists v, fval (fdiv (fsub y x) s) = Some v /\ Qceiling v = n) as (v & V & C).
  { destruct (isf_means _ _ Q) as (v & V & W). exists v. split; [exact V|]. rewrite W. apply Qceiling_Z. }
  unfold f_arange. rewrite V, C. assert (ex (fadd x s) (a + c)) as F by (apply ex_add; [exact X|exact S|lra]).
  assert (ex (fsub (fadd x s) x) c) as G by (apply (ex_eq _ (a + c - a)); [ring|]; apply ex_sub; [exact F|exact X|lra]).
  assert (forall l, (forall i, In i l -> (i < Z.to_nat n)%nat) ->
    Forall2 ex (map (fun i => match i with 0%nat => x | 1%nat => fadd x s | _ => fadd x (fmul (fint (Z.of_nat i)) (fsub (fadd x s) x)) end) l)
      (map (fun i => (a + inject_Z (Z.of_nat i) * c)%Q) l)) as H; [|apply H; intros i L; apply in_seq in L; lia].
  induction l as [|i l IH]; intros H; cbn [map]; constructor; [|apply IH; intros j J; apply H; right; exact J].
  pose proof (H i (or_introl eq_refl)) as L. destruct (I i L) as [I0 I1]. destruct i as [|[|i]].
  - apply (ex_eq _ a); [change (inject_Z (Z.of_nat 0)) with 0%Q; ring|exact X].
  - apply (ex_eq _ (a + c)); [change (inject_Z (Z.of_nat 1)) with 1%Q; ring|exact F].
  - set (j := Datatypes.S (Datatypes.S i)) in *. assert (0 <= inject_Z (Z.of_nat j) * c)%Q by (apply Qmult_le_0_compat; lra). apply ex_add; [exact X| |lra].
    assert (lat k (inject_Z (Z.of_nat j) * c)) as LJ by (split; [apply multiple_scale, S|lra]).
    split; [|exact LJ]. apply isf_mul; [apply isf_int; lia|apply G|exact (lat_repr k _ K LJ)].
Qed.

Lemma Forall2_prod {A B C D} (P : A -> C -> Prop) (Q : B -> D -> Prop) : forall l l', Forall2 P l l' -> forall m m', Forall2 Q m m' ->
  Forall2 (fun p q => P (fst p) (fst q) /\ Q (snd p) (snd q)) (list_prod l m) (list_prod l' m').
Proof.
  induction 1 as [|a c l l' H _ IH]; intros m m' M; cbn [list_prod]; [constructor|]. apply Forall2_app; [|apply IH, M].
  clear IH. induction M as [|b d m m' HM _ IM]; cbn [map]; constructor; [split; assumption|exact IM].
Qed.
Lemma mapM_Forall2_both {A B C D} (R : A -> B -> Prop) (T : C -> D -> Prop) f g : forall l m, Forall2 R l m ->
  (forall x y, In x l -> In y m -> R x y -> exists c d, f x = Ok c /\ g y = Ok d /\ T c d) ->
  exists l' m', mapM f l = Ok l' /\ mapM g m = Ok m' /\ Forall2 T l' m'.
Proof.
  induction 1 as [|x y l m H _ IH]; intros F; [exists [], []; repeat split; constructor|].
  destruct (F x y (or_introl eq_refl) (or_introl eq_refl) H) as (c & d & E1 & E2 & Tcd).
  destruct IH as (l' & m' & E3 & E4 & T'); [intros a b I J; apply F; right; assumption|].
  exists (c :: l'), (d :: m'). cbn [mapM]. rewrite E1, E2. cbn [bind]. rewrite E3, E4. cbn [bind]. repeat split. constructor; assumption.
Qed.

Lemma ex_cell cw ch lat' long w h y x t : ex cw w -> ex ch h -> ex lat' y -> ex long x -> (0 < w <= 360)%Q -> (0 < h <= 180)%Q -> (-180 <= x <= 180)%Q -> (-90 <= y)%Q ->
  (y + h <= 90)%Q -> times_ok t ->
  exists f b, f_cell cw ch lat' long = Ok f /\
    Boundary [y; (y + h)%Q] (if qleb (x + w) 180 then [x; (x + w)%Q] else [x; (x + w - 360)%Q]) t = Ok b /\ exb f b /\ good b /\ time_range b = t.
Proof.
  intros W H Y X Rw Rh Rx Ry Rt T. unfold f_cell.
  assert (ex (fadd long cw) (x + w)) as E by (apply ex_add; [exact X|exact W|lra]).
  assert (ex (fadd lat' ch) (y + h)) as N by (apply ex_add; [exact Y|exact H|lra]).
  rewrite (ex_le _ _ _ _ E (ex_int 180 ltac:(lia))). change (inject_Z 180) with 180%Q. destruct (qleb (x + w) 180) eqn:Q; qhyp.
  - destruct (ex_boundary _ _ _ _ _ _ _ _ t Y N X E T) as [F B]; [lra|lra|lra|]. eexists _, _. split; [exact F|]. split; [exact B|].
    split; [repeat split; cbn; first [apply Y|apply N|apply X|apply E]|]. split; [|reflexivity]. split; [unfold on_globe; cbn; repeat split; lra|exact T].
  - assert (ex (fsub (fadd long cw) (fint 360)) (x + w - 360)) as E' by (apply (ex_sub _ _ _ (inject_Z 360)); [exact E|apply ex_int; lia|change (inject_Z 360) with 360%Q; lra]).
    destruct (ex_boundary _ _ _ _ _ _ _ _ t Y N X E' T) as [F B]; [lra|lra|lra|]. eexists _, _. split; [exact F|]. split; [exact B|].
    split; [repeat split; cbn; first [apply Y|apply N|apply X|apply E']|]. split; [|reflexivity]. split; [unfold on_globe; cbn; repeat split; lra|exact T].
Qed.

Lemma arange_in a b c n : (0 < c)%Q -> (b - a == inject_Z n * c)%Q -> forall x, In x (arange a b c) -> (a <= x /\ x + c <= b)%Q.
Proof.
  intros P E x. rewrite (arange_exact a b c n P E). intros I. apply in_map_iff in I. destruct I as (i & <- & L). apply in_seq in L.
  assert (0 <= inject_Z (Z.of_nat i))%Q by (change 0%Q with (inject_Z 0); rewrite <- Zle_Qle; lia).
  assert (inject_Z (Z.of_nat i) + 1 <= inject_Z n)%Q as L1 by (change 1%Q with (inject_Z 1); rewrite <- inject_Z_plus, <- Zle_Qle; lia).
  assert (0 <= inject_Z (Z.of_nat i) * c)%Q by (apply Qmult_le_0_compat; lra).
  assert ((inject_Z (Z.of_nat i) + 1) * c <= inject_Z n * c)%Q by (apply Qmult_le_compat_r; lra). split; lra.
Qed.

Lemma exact_grid x b cw ch w h rows cols : exb x b -> good b -> ex cw w -> ex ch h -> (0 < w)%Q -> (0 < h)%Q -> 0 <= rows -> 0 <= cols ->
  (get_height b == inject_Z rows * h)%Q -> (get_width b == inject_Z cols * w)%Q -> (w <= 360)%Q -> (h <= 180)%Q ->
  exists l m, f_grid x cw ch = Ok l /\ initialize_bounds b w h = Ok m /\ Forall2 (fun f c => exb f c /\ good c) l m.
Proof.
  intros X G W H Pw Ph Rr Rc Er Ec Bw Bh. destruct X as (X1 & X2 & X3 & X4). destruct G as [G T]. pose proof G as G'. unfold on_globe in G'.
  assert (Forall2 ex (f_arange (flat_min x) (flat_max x) ch) (arange (lat_min b) (lat_max b) h)) as L by (apply (ex_arange _ _ _ _ _ _ rows); [assumption..|lra]).
  assert (Forall2 (fun f q => ex f q /\ in_domain q) (f_columns x cw) (long_columns b w)) as M.
  { unfold f_columns, long_columns. rewrite (ex_lt _ _ _ _ X3 X4). unfold get_width in Ec.
    assert (forall l m, Forall2 ex l m -> (forall q, In q m -> -200 <= q <= 600)%Q -> Forall2 (fun f q => ex f q /\ in_domain q) (map f_domain l) (map longitude_domain m)) as D.
    { induction 1 as [|f q l m F _ IH]; intros B; cbn [map]; constructor.
      - pose proof (B q (or_introl eq_refl)). split; [apply ex_domain; [exact F|lra]|apply domain_range].
      - apply IH. intros y I. apply B. right. exact I. }
    destruct (qltb (long_min b) (long_max b)) eqn:Q; qhyp.
    - apply D; [apply (ex_arange _ _ _ _ _ _ cols); [assumption..|lra]|]. intros z I. destruct (arange_in _ _ _ cols Pw Ec z I). lra.
    - assert (long_max b + 360 - long_min b == inject_Z cols * w)%Q as Ec' by (rewrite <- Ec; ring).
      apply D; [apply (ex_arange _ _ _ _ _ _ cols); [assumption| |assumption..|lra]|].
      + apply (ex_add _ _ _ (inject_Z 360)); [exact X4|apply ex_int; lia|change (inject_Z 360) with 360%Q; lra].
      + intros z I. destruct (arange_in _ _ _ cols Pw Ec' z I). lra. }
  unfold f_grid, initialize_bounds.
  destruct (mapM_Forall2_both _ (fun f c => exb f c /\ good c) (fun ll => f_cell cw ch (fst ll) (snd ll)) (fun ll => grid_cell_bounds b w h (fst ll) (snd ll)) _ _
    (Forall2_prod _ _ _ _ L _ _ M)) as (l & m & E1 & E2 & F); [|exists l, m; repeat split; assumption].
  intros [la lo] [y q] _ I [Y [Q Dq]]. cbn [fst snd] in *. apply in_prod_iff in I. destruct I as [Iy _]. destruct (arange_in _ _ _ rows Ph Er y Iy) as [Y1 Y2].
  unfold in_domain in Dq. destruct (ex_cell cw ch la lo w h y q (time_range b) W H Y Q) as (f & c & E1 & E2 & E3 & E4 & _); try lra; [exact T|].
  exists f, c. unfold grid_cell_bounds. repeat split; first [assumption|apply E3|apply E4].
Qed.
Lemma exact_validate x b cw ch w h : exb x b -> good b -> ex cw w -> ex ch h -> (0 < w)%Q -> (0 < h)%Q -> f_validate x cw ch = validate_bounds b w h.
Proof.
  intros (X1 & X2 & X3 & X4) [G _] W H Pw Ph. unfold on_globe in G. unfold f_validate, validate_bounds. assert (ex (fint 0) 0) as Z0 by exact (ex_int 0 ltac:(lia)).
  assert (ex (fsub (flong_max x) (flong_min x)) (long_max b - long_min b)) as E1 by (apply ex_sub; [exact X4|exact X3|lra]).
  assert (ex (fsub (flat_max x) (flat_min x)) (lat_max b - lat_min b)) as E2 by (apply ex_sub; [exact X2|exact X1|lra]).
  assert (ex (py_mod (fsub (flong_max x) (flong_min x)) (fint 360)) (qmod (long_max b - long_min b) 360)) as E3 by (apply ex_mod; [exact E1|exact (ex_int 360 ltac:(lia))|reflexivity]).
  pose proof (ex_mod _ _ _ _ E3 W Pw) as E4. pose proof (ex_mod _ _ _ _ E2 H Ph) as E5.
  rewrite (ex_eqb _ _ _ _ W Z0), (ex_eqb _ _ _ _ H Z0), (ex_eqb _ _ _ _ E4 Z0), (ex_eqb _ _ _ _ E5 Z0). reflexivity.
Qed.
End Lattice.

(** ** Splitting *)
Lemma ex_mono k k' x q : k <= k' -> ex k x q -> ex k' x q.
Proof. intros L [X [M R]]. split; [exact X|split; [exact (multiple_mono k k' q L M)|exact R]]. Qed.
Lemma exb_mono k k' x b : k <= k' -> exb k x b -> exb k' x b.
Proof. intros L (A & B & C & D). repeat split; eapply ex_mono; eauto. Qed.
Lemma ex_half k x a : 0 <= k -> k + 1 <= 43 -> ex k x a -> ex (k + 1) (fdiv x (fint 2)) (a / 2).
Proof.
  intros K0 K [X [M R]]. assert (a / 2 == a * (1#2))%Q as E by field. assert (lat (k + 1) (a / 2)) as L by (split; [apply multiple_half, M|lra]).
  split; [|exact L]. apply (isf_div x (fint 2) a 2); [exact X|exact (isf_int 2 eq_refl)|discriminate|apply (lat_repr (k + 1)); [lia|exact L]].
Qed.
Lemma exact_split k x b : 0 <= k -> k + 1 <= 43 -> exb k x b -> good b ->
  exists l m, f_split x = Ok l /\ split_bounds b = Ok m /\ Forall2 (fun f c => exb (k + 1) f c /\ good c) l m.
Proof.
  intros K0 K X G. assert (0 <= k <= 43) as K1 by lia. assert (0 <= k + 1 <= 43) as K2 by lia.
  pose proof (ex_half _ _ _ K0 K (ex_width k K1 x b X G)) as HW. pose proof (ex_half _ _ _ K0 K (ex_height k K1 x b X G)) as HH.
  pose proof (ex_mono k (k + 1) _ _ ltac:(lia) (ex_width k K1 x b X G)) as FW. pose proof (ex_mono k (k + 1) _ _ ltac:(lia) (ex_height k K1 x b X G)) as FH.
  pose proof (width_range b G) as RW. destruct (exb_mono k (k + 1) x b ltac:(lia) X) as (X1 & X2 & X3 & X4). destruct G as [G T]. unfold on_globe in G.
  assert (get_height b == lat_max b - lat_min b)%Q as RH by reflexivity.
  assert (get_width b / 2 == get_width b * (1#2))%Q as W2 by field. assert (get_height b / 2 == get_height b * (1#2))%Q as H2 by field.
  unfold f_split, split_bounds. cbv zeta.
  assert (ex (k + 1) (fadd (flat_min x) (fdiv (f_height x) (fint 2))) (lat_min b + get_height b / 2)) as A1 by (apply ex_add; [exact K2|exact X1|exact HH|lra]).
  assert (ex (k + 1) (fadd (flat_min x) (f_height x)) (lat_min b + get_height b)) as A2 by (apply ex_add; [exact K2|exact X1|exact FH|lra]).
  assert (ex (k + 1) (f_domain (fadd (flong_min x) (fdiv (f_width x) (fint 2)))) (longitude_domain (long_min b + get_width b / 2))) as A3.
  { apply ex_domain; [exact K2|apply ex_add; [exact K2|exact X3|exact HW|lra]|lra]. }
  assert (ex (k + 1) (f_domain (fadd (flong_min x) (f_width x))) (longitude_domain (long_min b + get_width b))) as A4.
  { apply ex_domain; [exact K2|apply ex_add; [exact K2|exact X3|exact FW|lra]|lra]. }
  pose proof (domain_range (long_min b + get_width b / 2)) as D1. pose proof (domain_range (long_min b + get_width b)) as D2. unfold in_domain in D1, D2.
  destruct (ex_boundary (k + 1) K2 _ _ _ _ _ _ _ _ (time_range b) A1 A2 X3 A3 T ltac:(lra) ltac:(lra) ltac:(lra)) as [-> ->].
  destruct (ex_boundary (k + 1) K2 _ _ _ _ _ _ _ _ (time_range b) A1 A2 A3 A4 T ltac:(lra) ltac:(lra) ltac:(lra)) as [-> ->].
  destruct (ex_boundary (k + 1) K2 _ _ _ _ _ _ _ _ (time_range b) X1 A1 X3 A3 T ltac:(lra) ltac:(lra) ltac:(lra)) as [-> ->].
  destruct (ex_boundary (k + 1) K2 _ _ _ _ _ _ _ _ (time_range b) X1 A1 A3 A4 T ltac:(lra) ltac:(lra) ltac:(lra)) as [-> ->].
  cbn [bind]. eexists _, _. split; [reflexivity|]. split; [reflexivity|].
  repeat apply Forall2_cons; try apply Forall2_nil; (split; [split; [|split; [|split]]; assumption|split; [|exact T]]);
    unfold on_globe; cbn [lat_min lat_max long_min long_max]; repeat split; lra.
Qed.

(** Descendants. *)
Inductive descends_exactly : nat -> boundary -> boundary -> Prop :=
| dx_here n b : descends_exactly n b b
| dx_split n b l c x : split_bounds b = Ok l -> In c l -> descends_exactly n c x -> descends_exactly (S n) b x.
Lemma exact_descends n : forall k x b y, 0 <= k -> k + Z.of_nat n <= 43 -> exb k x b -> good b -> descends n x y ->
  exists c, descends_exactly n b c /\ exb (k + Z.of_nat n) y c /\ good c.
Proof.
  induction n as [|n IH]; intros k x b y K0 K X G D.
  - inversion D; subst. exists b. split; [constructor|]. split; [apply (exb_mono k); [lia|exact X]|exact G].
  - inversion D as [|n' x' l c y' E I D']; subst.
    + exists b. split; [constructor|]. split; [apply (exb_mono k); [lia|exact X]|exact G].
    + destruct (exact_split k x b K0 ltac:(lia) X G) as (l' & m & E1 & E2 & F). rewrite E in E1. injection E1 as <-.
      assert (exists c', In c' m /\ exb (k + 1) c c' /\ good c') as (c' & I' & X' & G').
      { clear - F I. induction F as [|f d l m H _ IH]; [contradiction|]. destruct I as [->|I]; [exists d; split; [left; reflexivity|exact H]|].
        destruct (IH I) as (c' & I' & R). exists c'. split; [right; exact I'|exact R]. }
      destruct (IH (k + 1) c c' y ltac:(lia) ltac:(lia) X' G' D') as (z & Dz & Xz & Gz). exists z. split; [econstructor; eassumption|].
      split; [|exact Gz]. replace (k + Z.of_nat (S n)) with (k + 1 + Z.of_nat n) by lia. exact Xz.
Qed.
Lemma denotes_exb k x b : 0 <= k <= 43 -> denotes x b -> multiples k b -> on_globe b -> exb k x b.
Proof.
  intros K (A & B & C & D) (A' & B' & C' & D') G. unfold on_globe in G. repeat split; try assumption; try lra;
    (eapply double_isf; [exact K| |eassumption]; split; [assumption|lra]).
Qed.
Lemma exb_denotes k x b : exb k x b -> denotes x b.
Proof. intros ([A _] & [B _] & [C _] & [D _]). split; [|split; [|split]]; apply isf_double; assumption. Qed.
Lemma means_unique x a b : means x a -> means x b -> (a == b)%Q.
Proof. intros (v & E & F) (w & E' & F'). congruence || (rewrite E in E'; injection E' as ->; rewrite <- F; exact F'). Qed.

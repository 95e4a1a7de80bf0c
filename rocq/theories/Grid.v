(** The initial grid: its cells and its neighbour graph. *)
From Verif Require Import Base Geo Graph Cell Builder Spec MeshSpec QLib CaseProofs SplitGeo Dict Rep SplitCore Stage BuilderSplit Invariant.
Open Scope Z_scope.

(** ** Arithmetic *)
Lemma qmod_comp a a' b b' : (a == a')%Q -> (b == b')%Q -> (qmod a b == qmod a' b')%Q.
Proof.
  intros Ha Hb. unfold qmod.
  assert (Qfloor (a / b) = Qfloor (a' / b')) as E. { apply Qfloor_comp. rewrite Ha, Hb. reflexivity. }
  rewrite E, Ha, Hb. reflexivity.
Qed.
Lemma qfloor_unique q z : (inject_Z z <= q)%Q -> (q < inject_Z z + 1)%Q -> Qfloor q = z.
Proof.
  intros H1 H2. pose proof (Qfloor_le q) as F1. pose proof (Qlt_floor q) as F2.
  rewrite inject_Z_plus in F2. change (inject_Z 1) with 1%Q in F2.
  assert (A : (inject_Z z < inject_Z (Qfloor q + 1))%Q) by (rewrite inject_Z_plus; change (inject_Z 1) with 1%Q; lra).
  assert (B : (inject_Z (Qfloor q) < inject_Z (z + 1))%Q) by (rewrite inject_Z_plus; change (inject_Z 1) with 1%Q; lra).
  rewrite <- Zlt_Qlt in A, B. lia.
Qed.
Lemma qfloor_eq q z : (q == inject_Z z)%Q -> Qfloor q = z.
Proof. intros E. apply qfloor_unique; lra. Qed.
Lemma qceil_eq q z : (q == inject_Z z)%Q -> Qceiling q = z.
Proof. intros E. unfold Qceiling. rewrite (qfloor_eq (- q) (- z)); [lia|]. rewrite inject_Z_opp. lra. Qed.

Lemma qmod_inject a C : 0 < C -> (qmod (inject_Z a) (inject_Z C) == inject_Z (a mod C))%Q.
Proof.
  intros HC. unfold qmod.
  assert (HCq : (0 < inject_Z C)%Q) by (change 0%Q with (inject_Z 0); rewrite <- Zlt_Qlt; auto).
  rewrite (qfloor_unique _ (a / C)).
  - rewrite (Z.mod_eq a C) by lia. unfold Z.sub.
    rewrite inject_Z_plus, inject_Z_opp, inject_Z_mult. lra.
  - apply Qle_shift_div_l; auto. rewrite <- inject_Z_mult, <- Zle_Qle.
    rewrite Z.mul_comm. apply Z.mul_div_le; auto.
  - apply Qlt_shift_div_r; auto.
    change 1%Q with (inject_Z 1). rewrite <- inject_Z_plus, <- inject_Z_mult, <- Zlt_Qlt.
    pose proof (Z.mul_succ_div_gt a C HC). lia.
Qed.

(** Exact divisibility, from the [%] test of validate_bounds. *)
Lemma qmod_zero_div a s : (0 < s)%Q -> (0 <= a)%Q -> (qmod a s == 0)%Q ->
  exists n, 0 <= n /\ (a == inject_Z n * s)%Q.
Proof.
  intros Hs Ha E. unfold qmod in E. exists (Qfloor (a / s)). split.
  - assert (0 <= a / s)%Q by (apply Qle_shift_div_l; lra).
    apply (Qfloor_resp_le 0) in H. exact H.
  - lra.
Qed.

Lemma arange_exact a b s n : (0 < s)%Q -> (b - a == inject_Z n * s)%Q ->
  arange a b s = map (fun k => (a + inject_Z (Z.of_nat k) * s)%Q) (seq 0 (Z.to_nat n)).
Proof.
  intros Hs E. unfold arange. rewrite (qceil_eq _ n); auto.
  rewrite E. field. lra.
Qed.

(** ** Lists *)
Lemma nth_error_list_prod {A B} (l1 : list A) (l2 : list B) r c x y :
  nth_error l1 r = Some x -> nth_error l2 c = Some y ->
  nth_error (list_prod l1 l2) (r * List.length l2 + c) = Some (x, y).
Proof.
  revert r. induction l1 as [|a l1 IH]; intros r Hr Hc; [destruct r; discriminate|].
  cbn [list_prod]. assert (c < List.length l2)%nat by (apply nth_error_Some; congruence).
  destruct r as [|r].
  - cbn in *. injection Hr as ->. rewrite nth_error_app1 by (rewrite map_length; auto).
    rewrite nth_error_map, Hc. auto.
  - cbn in Hr. rewrite nth_error_app2 by (rewrite map_length; cbn; lia).
    rewrite map_length. replace (S r * List.length l2 + c - List.length l2)%nat with (r * List.length l2 + c)%nat by (cbn; lia).
    auto.
Qed.

Lemma nth_error_seq n k : (k < n)%nat -> nth_error (seq 0 n) k = Some k.
Proof.
  intros H. rewrite (nth_error_nth' _ 0%nat) by (rewrite seq_length; auto). rewrite seq_nth; auto.
Qed.

(** ** The cells of the initial grid *)
(** [bd] is the grid cell in row [r] and column [c]. *)
Definition grid_cell (b : boundary) (cw ch : Q) (r c : Z) (bd : boundary) : Prop :=
  ((long_min bd == long_min b + inject_Z c * cw) /\
   (long_max bd == long_min b + inject_Z c * cw + cw) /\
   (lat_min bd == lat_min b + inject_Z r * ch) /\
   (lat_max bd == lat_min b + inject_Z r * ch + ch))%Q /\
  time_range bd = time_range b.

Section G.
Variable b : boundary.
Variable cw ch : Q.
Variable R C : Z.
Hypothesis Hb : valid_region b.
Hypothesis Hcw : (0 < cw)%Q.
Hypothesis Hch : (0 < ch)%Q.
Hypothesis HC : (long_max b - long_min b == inject_Z C * cw)%Q.
Hypothesis HR : (lat_max b - lat_min b == inject_Z R * ch)%Q.
Hypothesis HR0 : 0 <= R.

Lemma C_pos : 0 < C.
Proof.
  destruct (Z_lt_le_dec 0 C); auto. exfalso.
  assert (inject_Z C <= 0)%Q by (change 0%Q with (inject_Z 0); rewrite <- Zle_Qle; auto).
  destruct Hb as ((? & _) & _). nra.
Qed.

Lemma col_bound c : 0 <= c < C -> (long_min b + inject_Z c * cw + cw <= long_max b)%Q.
Proof.
  intros H. assert (inject_Z (c + 1) <= inject_Z C)%Q by (rewrite <- Zle_Qle; lia).
  rewrite inject_Z_plus in H0. change (inject_Z 1) with 1%Q in H0. nra.
Qed.
Lemma inject_nonneg c : 0 <= c -> (0 <= inject_Z c)%Q.
Proof. intros. change 0%Q with (inject_Z 0). rewrite <- Zle_Qle. auto. Qed.

Lemma inject_mul_nonneg c (s : Q) : 0 <= c -> (0 < s)%Q -> (0 <= inject_Z c * s)%Q.
Proof. intros. apply Qmult_le_0_compat; [apply inject_nonneg; auto | lra]. Qed.

Definition cell_at (r c : nat) : boundary :=
  (let lat := lat_min b + inject_Z (Z.of_nat r) * ch in
   let long := longitude_domain (long_min b + inject_Z (Z.of_nat c) * cw) in
   mkB lat (lat + ch) long (long + cw) (time_range b))%Q.

Lemma cell_at_grid r c : (Z.of_nat c < C)%Z -> grid_cell b cw ch (Z.of_nat r) (Z.of_nat c) (cell_at r c).
Proof.
  intros H. destruct Hb as ((B1 & B2 & B3 & B4) & _).
  assert (E : (longitude_domain (long_min b + inject_Z (Z.of_nat c) * cw) == long_min b + inject_Z (Z.of_nat c) * cw)%Q).
  { apply longitude_domain_id. pose proof (col_bound (Z.of_nat c) ltac:(lia)). pose proof (inject_mul_nonneg (Z.of_nat c) cw ltac:(lia) Hcw). lra. }
  split; [|reflexivity]. cbn. repeat split; lra.
Qed.

Lemma initialize_bounds_ok : initialize_bounds b cw ch =
  Ok (map (fun rc => cell_at (fst rc) (snd rc)) (list_prod (seq 0 (Z.to_nat R)) (seq 0 (Z.to_nat C)))).
Proof.
  destruct Hb as ((B1 & B2 & B3 & B4) & T). unfold initialize_bounds, long_columns.
  destruct (qltb_spec (long_min b) (long_max b)) as [_|N]; [|contradiction].
  rewrite (arange_exact _ _ ch R), (arange_exact _ _ cw C) by auto.
  assert (X : forall rows, mapM (fun ll => grid_cell_bounds b cw ch (fst ll) (snd ll))
    (list_prod (map (fun k => (lat_min b + inject_Z (Z.of_nat k) * ch)%Q) rows)
       (map longitude_domain (map (fun k => (long_min b + inject_Z (Z.of_nat k) * cw)%Q) (seq 0 (Z.to_nat C)))))
    = Ok (map (fun rc => cell_at (fst rc) (snd rc)) (list_prod rows (seq 0 (Z.to_nat C))))).
  { intros rows.
    assert (Em : list_prod (map (fun k => (lat_min b + inject_Z (Z.of_nat k) * ch)%Q) rows)
       (map longitude_domain (map (fun k => (long_min b + inject_Z (Z.of_nat k) * cw)%Q) (seq 0 (Z.to_nat C)))) =
      map (fun rc => ((lat_min b + inject_Z (Z.of_nat (fst rc)) * ch)%Q, longitude_domain (long_min b + inject_Z (Z.of_nat (snd rc)) * cw)%Q))
       (list_prod rows (seq 0 (Z.to_nat C)))).
    { induction rows as [|r rows IH]; cbn; auto. rewrite map_app. f_equal; [rewrite !map_map; auto | exact IH]. }
    rewrite Em.
    assert (Ec : forall l, (forall rc, In rc l -> (snd rc < Z.to_nat C)%nat) ->
      mapM (fun ll => grid_cell_bounds b cw ch (fst ll) (snd ll))
        (map (fun rc => ((lat_min b + inject_Z (Z.of_nat (fst rc)) * ch)%Q, longitude_domain (long_min b + inject_Z (Z.of_nat (snd rc)) * cw)%Q)) l)
      = Ok (map (fun rc => cell_at (fst rc) (snd rc)) l)).
    { induction l as [|[r c] l IH]; intros H; cbn [map mapM fst snd]; auto.
      pose proof (H (r, c) (or_introl eq_refl)) as Hc. cbn in Hc.
      destruct (cell_at_grid r c) as ((G1 & G2 & G3 & G4) & _); [lia|]. cbn in G1, G2.
      pose proof (col_bound (Z.of_nat c) ltac:(lia)) as CB. pose proof (inject_mul_nonneg (Z.of_nat c) cw ltac:(lia) Hcw) as CN.
      unfold grid_cell_bounds.
      destruct (qleb_spec (longitude_domain (long_min b + inject_Z (Z.of_nat c) * cw) + cw) 180) as [_|N']; [|exfalso; lra].
      rewrite Boundary_ok; auto; try lra. cbn [bind].
      change (mapM _ _) with (mapM (fun ll => grid_cell_bounds b cw ch (fst ll) (snd ll)) (map (fun rc => ((lat_min b + inject_Z (Z.of_nat (fst rc)) * ch)%Q, longitude_domain (long_min b + inject_Z (Z.of_nat (snd rc)) * cw)%Q)) l)) at 1. rewrite IH by (intros; apply H; right; auto). reflexivity. }
    apply Ec. intros [r c] H. apply in_prod_iff in H as [_ H]. apply in_seq in H. cbn. lia. }
  apply X.
Qed.

Definition cell_list : list boundary :=
  map (fun rc => cell_at (fst rc) (snd rc)) (list_prod (seq 0 (Z.to_nat R)) (seq 0 (Z.to_nat C))).

Lemma cell_list_length : List.length cell_list = (Z.to_nat R * Z.to_nat C)%nat.
Proof. unfold cell_list. rewrite map_length, prod_length, !seq_length. auto. Qed.

Lemma cell_list_nth k : (k < Z.to_nat R * Z.to_nat C)%nat ->
  nth_error cell_list k = Some (cell_at (k / Z.to_nat C) (k mod Z.to_nat C)).
Proof.
  intros H. pose proof C_pos. assert (NC : Z.to_nat C <> 0%nat) by lia.
  unfold cell_list. rewrite nth_error_map.
  pose proof (Nat.div_mod k _ NC) as E. pose proof (Nat.mod_upper_bound k _ NC) as U.
  assert (D : (k / Z.to_nat C < Z.to_nat R)%nat) by (apply Nat.div_lt_upper_bound; lia).
  rewrite E at 1.
  replace (Z.to_nat C * (k / Z.to_nat C) + k mod Z.to_nat C)%nat
     with (k / Z.to_nat C * List.length (seq 0 (Z.to_nat C)) + k mod Z.to_nat C)%nat by (rewrite seq_length; lia).
  erewrite nth_error_list_prod by (apply nth_error_seq; assumption). reflexivity.
Qed.

(** ** Adjacency of grid cells, by row and column *)
Definition dx (d : compass) : Z := match d with dNE | dE | dSE => 1 | dSW | dW | dNW => -1 | _ => 0 end.
Definition dy (d : compass) : Z := match d with dNE | dN | dNW => 1 | dSE | dS | dSW => -1 | _ => 0 end.

Lemma grid_regular r c bd : 0 <= c < C -> grid_cell b cw ch r c bd -> regular bd.
Proof. intros _ ((G1 & G2 & G3 & G4) & _). unfold regular. split; lra. Qed.

Lemma inject_scale_eq (s : Q) a a' : (0 < s)%Q -> (inject_Z a * s == inject_Z a' * s)%Q <-> a = a'.
Proof.
  intros Hs. split; [|intros ->; reflexivity]. intros E.
  apply inject_Z_injective. assert (Ns : ~ (s == 0)%Q) by (intros E0; rewrite E0 in Hs; lra). exact (proj1 (Qmult_inj_r _ _ s Ns) E).
Qed.
Lemma inject_scale_lt (s : Q) a a' : (0 < s)%Q -> (inject_Z a * s < inject_Z a' * s)%Q <-> a < a'.
Proof. intros Hs. rewrite Qmult_lt_r by auto. rewrite <- Zlt_Qlt. tauto. Qed.

Lemma inject_succ a (s : Q) : (inject_Z (a + 1) * s == inject_Z a * s + s)%Q.
Proof. rewrite inject_Z_plus. change (inject_Z 1) with 1%Q. lra. Qed.

(** Contact between grid boxes with integer column and row numbers. *)
Lemma grid_lin r c r' c' a a' d :
  (x0 a == long_min b + inject_Z c * cw)%Q -> (x1 a == long_min b + inject_Z c * cw + cw)%Q ->
  (y0 a == lat_min b + inject_Z r * ch)%Q -> (y1 a == lat_min b + inject_Z r * ch + ch)%Q ->
  (x0 a' == long_min b + inject_Z c' * cw)%Q -> (x1 a' == long_min b + inject_Z c' * cw + cw)%Q ->
  (y0 a' == lat_min b + inject_Z r' * ch)%Q -> (y1 a' == lat_min b + inject_Z r' * ch + ch)%Q ->
  (lin d a a' <-> c' = c + dx d /\ r' = r + dy d).
Proof.
  intros A1 A2 A3 A4 B1 B2 B3 B4.
  assert (XE : forall p q, (inject_Z p * cw == inject_Z q * cw)%Q <-> p = q) by (intros; apply inject_scale_eq; auto).
  assert (YE : forall p q, (inject_Z p * ch == inject_Z q * ch)%Q <-> p = q) by (intros; apply inject_scale_eq; auto).
  assert (XL : forall p q, (inject_Z p * cw < inject_Z q * cw)%Q <-> p < q) by (intros; apply inject_scale_lt; auto).
  assert (YL : forall p q, (inject_Z p * ch < inject_Z q * ch)%Q <-> p < q) by (intros; apply inject_scale_lt; auto).
  pose proof (inject_succ c cw) as S1. pose proof (inject_succ c' cw) as S2.
  pose proof (inject_succ r ch) as S3. pose proof (inject_succ r' ch) as S4.
  pose proof (XE (c + 1) c'). pose proof (XE c (c' + 1)). pose proof (YE (r + 1) r'). pose proof (YE r (r' + 1)).
  pose proof (XL c (c' + 1)). pose proof (XL c' (c + 1)). pose proof (YL r (r' + 1)). pose proof (YL r' (r + 1)).
  clear XE YE XL YL.
  assert (E1 : (x1 a == x0 a')%Q <-> c + 1 = c') by (rewrite <- H; split; intros; lra).
  assert (E2 : (x0 a == x1 a')%Q <-> c = c' + 1) by (rewrite <- H0; split; intros; lra).
  assert (E3 : (y1 a == y0 a')%Q <-> r + 1 = r') by (rewrite <- H1; split; intros; lra).
  assert (E4 : (y0 a == y1 a')%Q <-> r = r' + 1) by (rewrite <- H2; split; intros; lra).
  assert (E5 : (x0 a < x1 a')%Q <-> c < c' + 1) by (rewrite <- H3; split; intros; lra).
  assert (E6 : (x0 a' < x1 a)%Q <-> c' < c + 1) by (rewrite <- H4; split; intros; lra).
  assert (E7 : (y0 a < y1 a')%Q <-> r < r' + 1) by (rewrite <- H5; split; intros; lra).
  assert (E8 : (y0 a' < y1 a)%Q <-> r' < r + 1) by (rewrite <- H6; split; intros; lra).
  destruct d; cbn [lin dx dy]; rewrite ?E1, ?E2, ?E3, ?E4, ?E5, ?E6, ?E7, ?E8; lia.
Qed.

Lemma grid_region r c bd : 0 <= c < C -> grid_cell b cw ch r c bd ->
  ((x0 (region bd) == long_min b + inject_Z c * cw) /\ (x1 (region bd) == long_min b + inject_Z c * cw + cw) /\
   (y0 (region bd) == lat_min b + inject_Z r * ch) /\ (y1 (region bd) == lat_min b + inject_Z r * ch + ch))%Q.
Proof.
  intros H G. rewrite (regular_x1 bd) by (eapply grid_regular; eauto). destruct G as (G & _). cbn. tauto.
Qed.

Lemma grid_contact r c r' c' bd bd' d : 0 <= c < C -> 0 <= c' < C ->
  grid_cell b cw ch r c bd -> grid_cell b cw ch r' c' bd' ->
  (contact false d (region bd) (region bd') <-> c' = c + dx d /\ r' = r + dy d).
Proof.
  intros H H' G G'. destruct (grid_region r c bd H G) as (A1 & A2 & A3 & A4).
  destruct (grid_region r' c' bd' H' G') as (B1 & B2 & B3 & B4). cbn [contact].
  eapply grid_lin; eauto.
Qed.

Lemma grid_contact_global r c r' c' bd bd' d :
  (long_max b - long_min b == 360)%Q -> 0 <= c < C -> 0 <= c' < C ->
  grid_cell b cw ch r c bd -> grid_cell b cw ch r' c' bd' ->
  (contact true d (region bd) (region bd') <-> (exists k, c' + k * C = c + dx d) /\ r' = r + dy d).
Proof.
  intros W H H' G G'. destruct (grid_region r c bd H G) as (A1 & A2 & A3 & A4).
  destruct (grid_region r' c' bd' H' G') as (B1 & B2 & B3 & B4). cbn [contact]. unfold lin_mod.
  assert (X : forall k, lin d (region bd) (shift (inject_Z k * 360) (region bd')) <-> c' + k * C = c + dx d /\ r' = r + dy d).
  { intros k.
    assert (EK : (inject_Z k * 360 == inject_Z (k * C) * cw)%Q).
    { rewrite inject_Z_mult. rewrite <- Qmult_assoc. rewrite <- HC, W. reflexivity. }
    assert (EP : (inject_Z (c' + k * C) * cw == inject_Z c' * cw + inject_Z (k * C) * cw)%Q).
    { rewrite inject_Z_plus. lra. }
    apply (grid_lin r c r' (c' + k * C)); auto; cbn [shift x0 x1 y0 y1]; auto; lra. }
  split.
  - intros (k & Hk). apply X in Hk as [H1 H2]. split; eauto.
  - intros ((k & Hk) & Hr). exists k. apply X. auto.
Qed.
End G.

(** ** The initial graph on an R x C grid *)
Section Init.
Variable R C : Z.
Hypothesis HC : 0 < C.
Hypothesis HR : 0 <= R.
Variable gw : Q.
Hypothesis Hgw : (gw == inject_Z C)%Q.

(** Lists of cell [i] under direction [d] in closed form. *)
Definition grid_nb (i : Z) (d : compass) : list Z :=
  let r := i / C in let c := i mod C in
  if ((0 <=? c + dx d) && (c + dx d <? C)) && ((0 <=? r + dy d) && (r + dy d <? R))
  then [(r + dy d) * C + (c + dx d)] else [].

Definition grid_f (i d : Z) : list Z := match dir_of d with Some dd => grid_nb i dd | None => [] end.

Lemma div_bounds i : 0 <= i < R * C -> 0 <= i / C < R /\ 0 <= i mod C < C /\ i = (i / C) * C + i mod C.
Proof.
  intros H. repeat split.
  - apply Z.div_pos; lia.
  - apply Z.div_lt_upper_bound; lia.
  - apply Z.mod_pos_bound; auto.
  - apply Z.mod_pos_bound; auto.
  - rewrite Z.mul_comm. apply Z.div_mod. lia.
Qed.

Lemma qeqb_inject a z : (a == inject_Z z)%Q -> qeqb a 0 = (z =? 0).
Proof.
  intros E. rewrite (qeqb_comp _ (inject_Z z) _ 0) by (auto; reflexivity).
  destruct (qeqb_spec (inject_Z z) 0), (Z.eqb_spec z 0); auto.
  - exfalso. apply n. apply inject_Z_injective. auto.
  - subst. exfalso. apply n. reflexivity.
Qed.

Lemma initialise_map_grid i : 0 <= i < R * C ->
  rep_map KI (initialise_map i gw (R * C)) (grid_f i).
Proof.
  intros Hi. destruct (div_bounds i Hi) as (Hr & Hc & Ei).
  eapply rep_map_ext; [|eapply rep_nmap8_KI; reflexivity].
  assert (Iu : qltb (inject_Z i + gw) (inject_Z (R * C)) = (i / C + 1 <? R)).
  { destruct (qltb_spec (inject_Z i + gw) (inject_Z (R * C))), (Z.ltb_spec (i / C + 1) R); auto; exfalso.
    - assert (inject_Z (i + C) < inject_Z (R * C))%Q by (rewrite inject_Z_plus; lra).
      rewrite <- Zlt_Qlt in H0. nia.
    - apply n. rewrite Hgw, <- inject_Z_plus, <- Zlt_Qlt. nia. }
  assert (Id : qleb 0 (inject_Z i - gw) = (0 <=? i / C - 1)).
  { destruct (qleb_spec 0 (inject_Z i - gw)), (Z.leb_spec 0 (i / C - 1)); auto; exfalso.
    - assert (inject_Z C <= inject_Z i)%Q by lra. rewrite <- Zle_Qle in H0. nia.
    - apply n. assert (inject_Z C <= inject_Z i)%Q by (rewrite <- Zle_Qle; nia). lra. }
  assert (Ie : negb (qeqb (qmod (inject_Z i + 1) gw) 0) = (i mod C + 1 <? C)).
  { rewrite (qeqb_inject _ ((i + 1) mod C)).
    2:{ rewrite <- (qmod_inject _ _ HC). apply qmod_comp; auto. rewrite inject_Z_plus. reflexivity. }
    assert (X : (i + 1) mod C = if i mod C + 1 =? C then 0 else i mod C + 1).
    { destruct (Z.eqb_spec (i mod C + 1) C).
      - symmetry. apply (Z.mod_unique_pos _ _ (i / C + 1)); nia.
      - symmetry. apply (Z.mod_unique_pos _ _ (i / C)); nia. }
    rewrite X. destruct (Z.eqb_spec (i mod C + 1) C), (Z.ltb_spec (i mod C + 1) C); cbn; try lia; auto.
    }
  assert (Iw : negb (qeqb (qmod (inject_Z i) gw) 0) = (0 <=? i mod C - 1)).
  { rewrite (qeqb_inject _ (i mod C)).
    2:{ rewrite <- (qmod_inject _ _ HC). apply qmod_comp; auto. reflexivity. }
    destruct (Z.eqb_spec (i mod C) 0), (Z.leb_spec 0 (i mod C - 1)); auto; lia. }
  assert (F1 : Qfloor (inject_Z i + gw + 1) = i + C + 1) by (apply qfloor_eq; rewrite !inject_Z_plus; change (inject_Z 1) with 1%Q; lra).
  assert (F2 : Qfloor (inject_Z i - gw + 1) = i - C + 1) by (apply qfloor_eq; unfold Z.sub; rewrite !inject_Z_plus, inject_Z_opp; change (inject_Z 1) with 1%Q; lra).
  assert (F3 : Qfloor (inject_Z i - gw) = i - C) by (apply qfloor_eq; unfold Z.sub; rewrite !inject_Z_plus, inject_Z_opp; lra).
  assert (F4 : Qfloor (inject_Z i - gw - 1) = i - C - 1) by (apply qfloor_eq; unfold Z.sub; rewrite !inject_Z_plus, !inject_Z_opp; change (inject_Z 1) with 1%Q; lra).
  assert (F5 : Qfloor (inject_Z i + gw - 1) = i + C - 1) by (apply qfloor_eq; unfold Z.sub; rewrite !inject_Z_plus, !inject_Z_opp; change (inject_Z 1) with 1%Q; lra).
  assert (F6 : Qfloor (inject_Z i + gw) = i + C) by (apply qfloor_eq; rewrite !inject_Z_plus; lra).
  intros d Hd. apply In_dirs_code in Hd as (dd & ->). unfold grid_f. rewrite dir_of_code.
  unfold initialise_map. cbv zeta.
  rewrite Iu, Id, Ie, Iw, F1, F2, F3, F4, F5, F6.
  unfold grid_nb. 
  destruct dd; cbn [code dget_opt key_eqb north_east east south_east south south_west west north_west north Z.eqb Pos.eqb dx dy]; cbv zeta;
  repeat match goal with
  | |- context [?p <? ?q] => destruct (Z.ltb_spec p q)
  | |- context [?p <=? ?q] => destruct (Z.leb_spec p q)
  end; cbn [andb]; try reflexivity; try (exfalso; lia); f_equal; nia.
Qed.

Lemma initialise_graph_rep : rep KI (initialise_neighbour_graph (Z.to_nat (R * C)) gw)
  (fun i => 0 <= i < R * C) grid_f.
Proof.
  unfold initialise_neighbour_graph.
  rewrite (Z2Nat.id (R * C)) by nia.
  assert (X : forall n, (n <= Z.to_nat (R * C))%nat ->
    rep KI (fold_left (fun g i => add_node g (KI (Z.of_nat i)) (initialise_map (Z.of_nat i) gw (R * C))) (seq 0 n) [])
      (fun i => 0 <= i < Z.of_nat n) grid_f).
  { induction n as [|n IH]; intros Hn.
    - split; [constructor|split]; [|intros; lia].
      intros k. split; [intros []|]. intros (i & _ & H). lia.
    - rewrite seq_S, fold_left_app. cbn [fold_left]. rewrite Nat.add_0_l.
      assert (Hn' : ~ (0 <= Z.of_nat n < Z.of_nat n)) by lia.
      assert (Hin : 0 <= Z.of_nat n < R * C) by lia.
      pose proof (rep_add_node KI KI_inj _ _ _ (Z.of_nat n) _ _ (IH ltac:(lia)) Hn' (initialise_map_grid _ Hin)) as H.
      eapply rep_ext; [| |exact H].
      + intros i. cbn beta. lia.
      + intros i d _ _. cbn beta. destruct (Z.eqb_spec i (Z.of_nat n)); subst; auto. }
  specialize (X (Z.to_nat (R * C)) ltac:(lia)).
  eapply rep_ext; [| |exact X]; auto. intros i. cbn beta. nia.
Qed.

(** ** Closing the circle: check_global_mesh *)
Definition wrap_nb (i : Z) (d : compass) : list Z :=
  let r := i / C in let c := i mod C in
  if (0 <=? r + dy d) && (r + dy d <? R) then
    if c + dx d =? -1 then [(r + dy d) * C + (C - 1)]
    else if c + dx d =? C then [(r + dy d) * C]
    else []
  else [].
Definition wrap_f (i d : Z) : list Z := match dir_of d with Some dd => wrap_nb i dd | None => [] end.

Definition row_f (p : Z) (i d : Z) : list Z := grid_f i d ++ (if i / C <? p then wrap_f i d else []).

Lemma py_nth_map_seq (h : nat -> Z) n k : 0 <= k < Z.of_nat n ->
  py_nth (map h (seq 0 n)) k = Ok (h (Z.to_nat k)).
Proof.
  intros H. rewrite <- (Z2Nat.id k) at 1 by lia. apply py_nth_some.
  rewrite nth_error_map, nth_error_seq by lia. auto.
Qed.

Lemma row_mn p : 0 <= p < R -> (p * C) / C = p /\ (p * C) mod C = 0.
Proof. intros. split; [apply Z.div_mul; lia | apply Z.mod_mul; lia]. Qed.
Lemma row_mx p : 0 <= p < R -> (p * C + (C - 1)) / C = p /\ (p * C + (C - 1)) mod C = C - 1.
Proof.
  intros. split.
  - symmetry. apply (Z.div_unique_pos _ _ _ (C - 1)); lia.
  - symmetry. apply (Z.mod_unique_pos _ _ p); lia.
Qed.

Hypothesis HC2 : 2 <= C.
Let mins := map (fun r => Z.of_nat r * C) (seq 0 (Z.to_nat R)).
Let maxs := map (fun r => Z.of_nat r * C + (C - 1)) (seq 0 (Z.to_nat R)).

Lemma connect_row_ok g p : (Z.of_nat p < R)%Z ->
  rep KI g (fun i => 0 <= i < R * C) (row_f (Z.of_nat p)) ->
  exists g', connect_row mins maxs g p = Ok g' /\ rep KI g' (fun i => 0 <= i < R * C) (row_f (Z.of_nat p + 1)).
Proof.
  intros Hp Rg. unfold connect_row.
  assert (Ln : Z.of_nat (List.length mins) = R) by (unfold mins; rewrite map_length, seq_length; lia).
  rewrite Ln. cbv zeta. set (zp := Z.of_nat p) in *.
  assert (Mn : forall k, 0 <= k < R -> py_nth mins k = Ok (k * C)).
  { intros k Hk. unfold mins. rewrite py_nth_map_seq by lia. rewrite Z2Nat.id by lia. auto. }
  assert (Mx : forall k, 0 <= k < R -> py_nth maxs k = Ok (k * C + (C - 1))).
  { intros k Hk. unfold maxs. rewrite py_nth_map_seq by lia. rewrite Z2Nat.id by lia. auto. }
  rewrite Mn, Mx by lia. cbn [bind].
  assert (Lmn : 0 <= zp * C < R * C) by nia.
  assert (Lmx : 0 <= zp * C + (C - 1) < R * C) by nia.
  destruct (row_mn zp ltac:(lia)) as [Dn Mdn]. destruct (row_mx zp ltac:(lia)) as [Dx Mdx].
  destruct (rep_add KI KI_inj _ _ _ (zp * C) west (zp * C + (C - 1)) Rg Lmn) as (g1 & -> & R1); [cbn; tauto|]. cbn [bind].
  destruct (rep_add KI KI_inj _ _ _ (zp * C + (C - 1)) east (zp * C) R1 Lmx) as (g2 & -> & R2); [cbn; tauto|]. cbn [bind].
  clear R1.
  assert (X : exists g3 h3, (if (0 <=? zp) && (zp <? R - 1) then
          mx1 <- py_nth maxs (zp + 1) ;; mn1 <- py_nth mins (zp + 1) ;;
          g <- add_neighbour g2 (KI (zp * C)) (KI north_west) mx1 ;;
          add_neighbour g (KI (zp * C + (C - 1))) (KI north_east) mn1
        else Ok g2) = Ok g3 /\ rep KI g3 (fun i => 0 <= i < R * C) h3 /\
     forall i d, 0 <= i < R * C -> In d dirs ->
       h3 i d = row_f zp i d ++
         (if (i =? zp * C) && (d =? west) then [zp * C + (C - 1)]
          else if (i =? zp * C + (C - 1)) && (d =? east) then [zp * C]
          else if (zp <? R - 1) && (i =? zp * C) && (d =? north_west) then [(zp + 1) * C + (C - 1)]
          else if (zp <? R - 1) && (i =? zp * C + (C - 1)) && (d =? north_east) then [(zp + 1) * C]
          else [])).
  { replace (0 <=? zp) with true by (symmetry; apply Z.leb_le; lia). cbn [andb].
    destruct (Z.ltb_spec zp (R - 1)) as [Hz|Hz].
    - rewrite Mn, Mx by lia. cbn [bind].
      destruct (rep_add KI KI_inj _ _ _ (zp * C) north_west ((zp + 1) * C + (C - 1)) R2 Lmn) as (g3 & -> & R3); [cbn; tauto|]. cbn [bind].
      destruct (rep_add KI KI_inj _ _ _ (zp * C + (C - 1)) north_east ((zp + 1) * C) R3 Lmx) as (g4 & -> & R4); [cbn; tauto|].
      eexists; eexists; split; [reflexivity|]. split; [exact R4|].
      intros i d Hi Hd. unfold upd, east, west, north_west, north_east.
      assert (N1 : (zp * C =? zp * C + (C - 1)) = false) by (apply Z.eqb_neq; lia).
      assert (N2 : (zp * C + (C - 1) =? zp * C) = false) by (apply Z.eqb_neq; lia).
      destruct (Z.eqb_spec i (zp * C)) as [->|]; [|destruct (Z.eqb_spec i (zp * C + (C - 1))) as [->|]];
      rewrite ?N1, ?N2, ?Z.eqb_refl; cbn [andb];
      repeat match goal with |- context [d =? ?k] => destruct (Z.eqb_spec d k); subst end;
      cbn [andb Z.eqb Pos.eqb]; rewrite ?N1, ?N2, ?Z.eqb_refl; cbn [andb Z.eqb Pos.eqb]; rewrite ?app_nil_r; auto; try lia.
    - exists g2; eexists; split; [reflexivity|]. split; [exact R2|].
      intros i d Hi Hd. unfold upd, east, west.
      assert (N1 : (zp * C =? zp * C + (C - 1)) = false) by (apply Z.eqb_neq; lia).
      assert (N2 : (zp * C + (C - 1) =? zp * C) = false) by (apply Z.eqb_neq; lia).
      cbn [andb].
      destruct (Z.eqb_spec i (zp * C)) as [->|]; [|destruct (Z.eqb_spec i (zp * C + (C - 1))) as [->|]];
      rewrite ?N1, ?N2, ?Z.eqb_refl; cbn [andb];
      repeat match goal with |- context [d =? ?k] => destruct (Z.eqb_spec d k); subst end;
      cbn [andb Z.eqb Pos.eqb]; rewrite ?N1, ?N2, ?Z.eqb_refl; cbn [andb Z.eqb Pos.eqb]; rewrite ?app_nil_r; auto; try lia. }
  destruct X as (g3 & h3 & -> & R3 & H3). cbn [bind]. clear R2.
  assert (X : exists g5 h5, (if (0 <? zp) && (zp <=? R - 1) then
    mx1 <- py_nth maxs (zp - 1) ;; mn1 <- py_nth mins (zp - 1) ;;
    g <- add_neighbour g3 (KI (zp * C)) (KI south_west) mx1 ;;
    add_neighbour g (KI (zp * C + (C - 1))) (KI south_east) mn1
    else Ok g3) = Ok g5 /\ rep KI g5 (fun i => 0 <= i < R * C) h5 /\
     forall i d, 0 <= i < R * C -> In d dirs ->
       h5 i d = h3 i d ++
         (if (0 <? zp) && (i =? zp * C) && (d =? south_west) then [(zp - 1) * C + (C - 1)]
          else if (0 <? zp) && (i =? zp * C + (C - 1)) && (d =? south_east) then [(zp - 1) * C]
          else [])).
  { replace (zp <=? R - 1) with true by (symmetry; apply Z.leb_le; lia). rewrite andb_true_r.
    destruct (Z.ltb_spec 0 zp) as [Hz|Hz].
    - rewrite Mn, Mx by lia. cbn [bind].
      destruct (rep_add KI KI_inj _ _ _ (zp * C) south_west ((zp - 1) * C + (C - 1)) R3 Lmn) as (g4 & -> & R4); [cbn; tauto|]. cbn [bind].
      destruct (rep_add KI KI_inj _ _ _ (zp * C + (C - 1)) south_east ((zp - 1) * C) R4 Lmx) as (g5 & -> & R5); [cbn; tauto|].
      eexists; eexists; split; [reflexivity|]. split; [exact R5|].
      intros i d Hi Hd. unfold upd, south_west, south_east.
      assert (N1 : (zp * C =? zp * C + (C - 1)) = false) by (apply Z.eqb_neq; lia).
      assert (N2 : (zp * C + (C - 1) =? zp * C) = false) by (apply Z.eqb_neq; lia).
      destruct (Z.eqb_spec i (zp * C)) as [->|]; [|destruct (Z.eqb_spec i (zp * C + (C - 1))) as [->|]];
      rewrite ?N1, ?N2, ?Z.eqb_refl; cbn [andb];
      repeat match goal with |- context [d =? ?k] => destruct (Z.eqb_spec d k); subst end;
      cbn [andb Z.eqb Pos.eqb]; rewrite ?N1, ?N2, ?Z.eqb_refl; cbn [andb Z.eqb Pos.eqb]; rewrite ?app_nil_r; auto; try lia.
    - exists g3, h3; split; [reflexivity|]. split; [exact R3|]. intros. cbn [andb]. rewrite app_nil_r. auto. }
  destruct X as (g5 & h5 & -> & R5 & H5).
  exists g5. split; auto. eapply rep_same; [|exact R5].
  intros i d Hi Hd. rewrite H5, H3 by auto. clear H5 H3 R5 R3 Rg.
  unfold row_f. rewrite <- !app_assoc. f_equal.
  destruct (div_bounds i Hi) as (Hr & Hc & Ei).
  apply In_dirs_code in Hd as (dd & ->). unfold wrap_f. rewrite dir_of_code. unfold wrap_nb. cbv zeta.
  destruct (Z.eqb_spec i (zp * C)) as [E|N].
  - rewrite E, Dn, Mdn.
    replace (zp * C =? zp * C + (C - 1)) with false by (symmetry; apply Z.eqb_neq; lia).
    destruct (Z.ltb_spec zp zp); [lia|]. destruct (Z.ltb_spec zp (zp + 1)); [|lia]. cbn [andb].
    rewrite !andb_false_r. cbn [andb].
    destruct dd; cbn [code dx dy west east south_west south_east north_west north_east andb Z.eqb Pos.eqb app];
      rewrite ?andb_true_r, ?andb_false_r; cbn [andb app];
      repeat match goal with
      | |- context [?p <? ?q] => destruct (Z.ltb_spec p q)
      | |- context [?p <=? ?q] => destruct (Z.leb_spec p q)
      | |- context [?p =? ?q] => destruct (Z.eqb_spec p q)
      end; cbn [andb app]; try reflexivity; try (exfalso; lia); repeat (f_equal; try lia).
  - destruct (Z.eqb_spec i (zp * C + (C - 1))) as [E|N'].
    + rewrite E, Dx, Mdx.
      destruct (Z.ltb_spec zp zp); [lia|]. destruct (Z.ltb_spec zp (zp + 1)); [|lia]. cbn [andb].
      rewrite !andb_false_r. cbn [andb].
      destruct dd; cbn [code dx dy west east south_west south_east north_west north_east andb Z.eqb Pos.eqb app];
        rewrite ?andb_true_r, ?andb_false_r; cbn [andb app];
        repeat match goal with
        | |- context [?p <? ?q] => destruct (Z.ltb_spec p q)
        | |- context [?p <=? ?q] => destruct (Z.leb_spec p q)
        | |- context [?p =? ?q] => destruct (Z.eqb_spec p q)
        end; cbn [andb app]; try reflexivity; try (exfalso; lia); repeat (f_equal; try lia).
    + cbn [andb]. rewrite !andb_false_r. cbn [andb app]. rewrite !app_nil_r.
      destruct (Z.ltb_spec (i / C) zp), (Z.ltb_spec (i / C) (zp + 1)); auto; try lia.
      assert (i / C = zp) by lia. rewrite H1 in Ei.
      destruct ((0 <=? i / C + dy dd) && (i / C + dy dd <? R)); auto.
      destruct (Z.eqb_spec (i mod C + dx dd) (-1)); [exfalso; destruct dd; cbn in *; lia|].
      destruct (Z.eqb_spec (i mod C + dx dd) C); [exfalso; destruct dd; cbn in *; lia|]. auto.
Qed.

Lemma connect_rows_ok g : rep KI g (fun i => 0 <= i < R * C) grid_f ->
  exists g', foldM (connect_row mins maxs) g (seq 0 (List.length mins)) = Ok g' /\
    rep KI g' (fun i => 0 <= i < R * C) (fun i d => grid_f i d ++ wrap_f i d).
Proof.
  intros Rg.
  assert (Ln : List.length mins = Z.to_nat R) by (unfold mins; rewrite map_length, seq_length; lia).
  rewrite Ln.
  destruct (foldM_inv (fun pre g => rep KI g (fun i => 0 <= i < R * C) (row_f (Z.of_nat (List.length pre))))
    (connect_row mins maxs) (seq 0 (Z.to_nat R)) g) as (g' & E & R').
  - eapply rep_same; [|exact Rg]. intros i d Hi Hd. unfold row_f. cbn.
    destruct (Z.ltb_spec (i / C) 0); [|rewrite app_nil_r; auto]. pose proof (Z.div_pos i C). lia.
  - intros pre x post s El Rs.
    assert (x = List.length pre /\ (x < Z.to_nat R)%nat) as [-> Hx].
    { assert (N : nth_error (seq 0 (Z.to_nat R)) (List.length pre) = Some x).
      { rewrite El, nth_error_app2, Nat.sub_diag by lia. auto. }
      assert (L : (List.length pre < Z.to_nat R)%nat).
      { assert (List.length (seq 0 (Z.to_nat R)) = List.length (pre ++ x :: post)) by (f_equal; auto).
        rewrite seq_length, app_length in H. cbn in H. lia. }
      rewrite nth_error_seq in N by auto. injection N as <-. auto. }
    destruct (connect_row_ok s (List.length pre) ltac:(lia) Rs) as (s' & Es & Rs').
    exists s'. split; auto. rewrite app_length. cbn [List.length].
    replace (Z.of_nat (List.length pre + 1)) with (Z.of_nat (List.length pre) + 1) by lia. auto.
  - exists g'. split; auto. eapply rep_same; [|exact R'].
    intros i d Hi Hd. unfold row_f. rewrite seq_length.
    destruct (div_bounds i Hi) as (Hr & _). destruct (Z.ltb_spec (i / C) (Z.of_nat (Z.to_nat R))); auto. lia.
Qed.

(** The two slices of check_global_mesh. *)
Lemma filter_none {A} (p : A -> bool) l : (forall x, In x l -> p x = false) -> filter p l = [].
Proof.
  induction l as [|a l IH]; intros H; cbn; auto. rewrite H by (left; auto). apply IH. intros; apply H; right; auto.
Qed.
Lemma filter_seq_one (p : nat -> bool) a n k : (a <= k < a + n)%nat -> p k = true ->
  (forall x, (a <= x < a + n)%nat -> x <> k -> p x = false) -> filter p (seq a n) = [k].
Proof.
  intros Hk Pk Po. replace n with ((k - a) + (1 + (a + n - k - 1)))%nat by lia.
  rewrite !seq_app, !filter_app. cbn [seq].
  replace (a + (k - a))%nat with k by lia.
  rewrite (filter_none p (seq a (k - a))), (filter_none p (seq (k + 1) _)).
  - cbn. rewrite Pk. auto.
  - intros x Hx. apply in_seq in Hx. apply Po; lia.
  - intros x Hx. apply in_seq in Hx. apply Po; lia.
Qed.
Lemma combine_map_seq {B} (h : nat -> B) l : combine l (map h l) = map (fun k => (k, h k)) l.
Proof. induction l; cbn; congruence. Qed.
Lemma filter_map_comm {A B} (h : A -> B) (p : B -> bool) l : filter p (map h l) = map h (filter (fun x => p (h x)) l).
Proof. induction l as [|a l IH]; cbn; auto. destruct (p (h a)); cbn; congruence. Qed.

Lemma slice_rows st : 0 <= st < C ->
  slice_step (map Z.of_nat (seq 0 (Z.to_nat (R * C)))) st C =
  map (fun r => Z.of_nat r * C + st) (seq 0 (Z.to_nat R)).
Proof.
  intros Hst. unfold slice_step. rewrite map_length, seq_length, combine_map_seq, filter_map_comm, map_map.
  cbn [fst snd].
  replace (Z.to_nat (R * C)) with (Z.to_nat R * Z.to_nat C)%nat by (rewrite Z2Nat.inj_mul; lia).
  induction (Z.to_nat R) as [|n IH]; auto.
  rewrite seq_S, map_app. cbn [map].
  replace (S n * Z.to_nat C)%nat with (n * Z.to_nat C + Z.to_nat C)%nat by lia.
  rewrite seq_app, filter_app, map_app, IH. f_equal. cbn [Nat.add].
  rewrite (filter_seq_one _ _ _ (n * Z.to_nat C + Z.to_nat st)).
  - cbn. f_equal. nia.
  - lia.
  - apply andb_true_iff. split; [apply Z.leb_le; nia|]. apply Z.eqb_eq.
    replace (Z.of_nat (n * Z.to_nat C + Z.to_nat st) - st) with (Z.of_nat n * C) by nia. apply Z.mod_mul; lia.
  - intros x Hx Nx. apply andb_false_iff. right. apply Z.eqb_neq.
    assert (X : Z.of_nat x - st = (Z.of_nat x - st - Z.of_nat n * C) + Z.of_nat n * C) by lia.
    rewrite X, Z.mod_add by lia.
    destruct (Z_lt_le_dec (Z.of_nat x - st - Z.of_nat n * C) 0).
    + rewrite <- (Z.mod_add _ 1) by lia. rewrite Z.mod_small; nia.
    + rewrite Z.mod_small; nia.
Qed.
End Init.

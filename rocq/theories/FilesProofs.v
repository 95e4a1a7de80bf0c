(** Proofs about the choice of data files (C67, C68). *)
From Coq Require Import Sorting.Sorted Permutation.
From Verif Require Import Base PyStr StrLib Dates DateSpec CalProofs DateProofs Files FilesSpec.
Open Scope string_scope.
Open Scope Z_scope.

(** ** Calendar order *)
Definition ord (d : Z * Z * Z) : Z := let '(y, m, d) := d in ymd2ord y m d.
Lemma ord_lt y m d y' m' d' : valid y m d -> valid y' m' d' -> y < y' \/ (y = y' /\ (m < m' \/ (m = m' /\ d < d'))) -> ymd2ord y m d < ymd2ord y' m' d'.
Proof.
  intros [M D] [M' D'] [L|[<- [L|[<- L]]]]; rewrite !ord_eq; rewrite dim_eq in D, D'.
  - pose proof (doy_range _ _ _ M D) as R. pose proof (doy_range _ _ _ M' D') as R'.
    pose proof (lp_dby y) as N. pose proof (dby_mono (y + 1) (y' - (y + 1)) ltac:(lia)) as P.
    replace (y + 1 + (y' - (y + 1))) with y' in P by lia. unfold lp in N. lia.
  - pose proof (doy_before (is_leap y) m m' d d' ltac:(lia) ltac:(lia) ltac:(lia) ltac:(lia)). lia.
  - unfold doy. lia.
Qed.
Lemma ord_le a b : calendar_date a -> calendar_date b -> (date_le a b <-> ord a <= ord b).
Proof.
  destruct a as [[y m] d], b as [[y' m'] d']. intros A B. apply calendar_valid in A, B. cbn [ord date_le]. split.
  - intros [L|[<- [L|[<- L]]]].
    + pose proof (ord_lt y m d y' m' d' A B ltac:(lia)). lia.
    + pose proof (ord_lt y m d y m' d' A B ltac:(lia)). lia.
    + rewrite !ord_eq. unfold doy. lia.
  - intros L. destruct (Z.lt_trichotomy y y') as [X|[X|X]]; [left; exact X| |pose proof (ord_lt y' m' d' y m d B A ltac:(lia)); lia].
    right. split; [exact X|]. subst y'. destruct (Z.lt_trichotomy m m') as [X|[X|X]]; [left; exact X| |pose proof (ord_lt y m' d' y m d B A ltac:(lia)); lia].
    right. split; [exact X|]. subst m'. destruct (Z.le_gt_cases d d') as [X|X]; [exact X|]. pose proof (ord_lt y m d' y m d B A ltac:(lia)). lia.
Qed.
Lemma file_date_ok s date : written_as s date -> a_date date -> file_date s = Ok (ord date).
Proof. intros W [C Y]. unfold file_date. rewrite (written_strptime s date W C Y). destruct date as [[y m] d]. reflexivity. Qed.

(** ** Splitting at a character *)
Fixpoint spl (c : ascii) (s : string) : list string :=
  match s with
  | "" => [""]
  | String d s' => if Ascii.eqb c d then "" :: spl c s' else match spl c s' with h :: t => String d h :: t | [] => [String d ""] end
  end.
Lemma split_spl c s : split (String c "") s = spl c s.
Proof.
  induction s as [|d s IH]; [reflexivity|]. rewrite split_cut. cbn [cut strip_prefix spl]. destruct (Ascii.eqb_spec c d) as [->|N].
  - destruct s; cbn [strip_prefix]; rewrite <- IH; reflexivity.
  - rewrite <- IH, split_cut. destruct (cut (String c "") s) as [[a b]|]; reflexivity.
Qed.
Lemma spl_nonempty c s : spl c s <> [].
Proof. destruct s as [|d s]; cbn; [discriminate|]. destruct (Ascii.eqb c d); [discriminate|]. destruct (spl c s); discriminate. Qed.
Lemma spl_app c a b : spl c (a ++ String c b) = (spl c a ++ spl c b)%list.
Proof.
  induction a as [|d a IH]; cbn [append spl]; [rewrite Ascii.eqb_refl; reflexivity|]. destruct (Ascii.eqb c d); [rewrite IH; reflexivity|].
  rewrite IH. destruct (spl c a) eqn:E; [exfalso; eapply spl_nonempty; eauto|reflexivity].
Qed.
Lemma spl_free c a : lacks c a -> spl c a = [a].
Proof. intros F. rewrite <- split_spl. apply split_none. exact F. Qed.
Lemma lacks_app c a b : lacks c (a ++ b) <-> lacks c a /\ lacks c b.
Proof. apply free_app. Qed.
Lemma digits_lack c s : ~ is_digit c -> all_digits s -> lacks c s.
Proof. intros N D I. apply N. apply D. exact I. Qed.
Lemma written_lacks c s date : written_as s date -> ~ is_digit c -> c <> "-"%char -> lacks c s.
Proof.
  destruct date as [[y m] d]. intros (ys & ms & ds & -> & Dy & Dm & Dd & _) N H. 
  apply lacks_app. split; [apply digits_lack; assumption|]. apply lacks_app. split; [intros [X|[]]; congruence|]. apply lacks_app. split; [apply digits_lack; assumption|].
  apply lacks_app. split; [intros [X|[]]; congruence|apply digits_lack; assumption].
Qed.
Lemma not_digit c : (nat_of_ascii c < 48 \/ 57 < nat_of_ascii c)%nat -> ~ is_digit c.
Proof. unfold is_digit. lia. Qed.
Lemma basename_is dir n : (dir = "" \/ exists d, dir = d ++ "/") -> lacks "/" n -> basename (dir ++ n) = n.
Proof.
  intros D L. unfold basename. rewrite split_spl. destruct D as [->|(d & ->)]; [cbn [append]; rewrite spl_free by exact L; reflexivity|].
  rewrite app_assoc_s. change ("/" ++ n) with (String "/" n). rewrite spl_app, (spl_free _ n L), last_last. reflexivity.
Qed.
Lemma substring_app p s n : substring (String.length p) n (p ++ s) = substring 0 n s.
Proof. induction p as [|c p IH]; [destruct n, s; reflexivity|]. cbn. exact IH. Qed.
Lemma substring_0 s r : substring 0 (String.length s) (s ++ r) = s.
Proof. induction s as [|c s IH]; [destruct r; reflexivity|]. cbn. rewrite IH. reflexivity. Qed.
Lemma middle_is p t s : String.length p = 10%nat -> String.length s = 3%nat -> middle (p ++ t ++ s) = t.
Proof.
  intros P S3. unfold middle. rewrite !length_app_s, P, S3. replace (10 + (String.length t + 3) - 3 - 10)%nat with (String.length t) by lia.
  rewrite <- P, substring_app. apply substring_0.
Qed.
Lemma era5_date f date : name_era5 f date -> a_date date -> file_date (middle (basename f)) = Ok (ord date).
Proof.
  intros (dir & p & t & s & -> & D & P & S3 & Lp & Ls & W) A. rewrite basename_is; [|exact D|].
  - rewrite middle_is by assumption. apply file_date_ok; assumption.
  - apply lacks_app. split; [exact Lp|]. apply lacks_app. split; [|exact Ls]. eapply written_lacks; [exact W| |discriminate]. apply not_digit. cbn. lia.
Qed.
Lemma amsr_date_ok f date : name_amsr f date -> a_date date -> amsr_date f = Ok (ord date).
Proof.
  destruct date as [[y m] d]. intros (head & ys & ms & ds & tail & -> & Lt & Dy & Dm & Dd & Ly & Lm & Ld & Vy & Vm & Vd) A.
  unfold amsr_date. rewrite split_spl. change ("-" ++ (ys ++ ms ++ ds) ++ "-" ++ tail) with (String "-" ((ys ++ ms ++ ds) ++ String "-" tail)).
  rewrite spl_app, spl_app, (spl_free _ tail Lt).
  assert (N : ~ is_digit "-"%char) by (apply not_digit; cbn; lia).
  rewrite (spl_free _ (ys ++ ms ++ ds)) by (apply lacks_app; split; [|apply lacks_app; split]; apply digits_lack; assumption).
  rewrite rev_app_distr. cbn [app rev]. apply file_date_ok; [|exact A].
  exists ys, ms, ds. split; [|exact (conj Dy (conj Dm (conj Dd (conj Ly (conj (or_intror Lm) (conj (or_intror Ld) (conj Vy (conj Vm Vd))))))))].
  assert (E0 : substring 0 4 (ys ++ ms ++ ds) = ys) by (rewrite <- Ly; apply substring_0).
  assert (E1 : substring 4 2 (ys ++ ms ++ ds) = ms) by (rewrite <- Ly, substring_app, <- Lm; apply substring_0).
  assert (E2 : substring 6 (String.length (ys ++ ms ++ ds) - 6) (ys ++ ms ++ ds) = ds).
  { rewrite !length_app_s, Ly, Lm. replace (4 + (2 + String.length ds) - 6)%nat with (String.length ds) by lia.
    rewrite <- app_assoc_s. replace 6%nat with (String.length (ys ++ ms)) by (rewrite length_app_s; lia). rewrite substring_app. rewrite <- (app_nil_s ds) at 2. apply substring_0. }
  rewrite E0, E1, E2. reflexivity.
Qed.
Lemma icenet_date_ok f date : name_icenet f date -> a_date date -> icenet_date f = Ok (ord date).
Proof.
  intros (head & t & tail & -> & L & W) A. unfold icenet_date. rewrite split_spl. change ("." ++ t ++ "." ++ tail) with (String "." (t ++ String "." tail)).
  rewrite spl_app, spl_app, (spl_free _ head L), (spl_free _ t).
  - cbn [app]. apply file_date_ok; assumption.
  - eapply written_lacks; [exact W| |discriminate]. apply not_digit. cbn. lia.
Qed.

(** ** Picking *)
Lemma pick_ok {A} (p : A -> res bool) (P : A -> Prop) l l' : (forall x, In x l -> exists b, p x = Ok b /\ (b = true <-> P x)) -> picked P l l' -> pick p l = Ok l'.
Proof.
  intros H K. induction K as [|x l l' Px K IH|x l l' Px K IH]; [reflexivity| |]; cbn [pick]; destruct (H x (or_introl eq_refl)) as (b & -> & B);
    (rewrite IH by (intros y I; apply H; right; exact I)); cbn [bind].
  - rewrite (proj2 B Px). reflexivity.
  - destruct b; [exfalso; apply Px, B; reflexivity|reflexivity].
Qed.
Lemma picked_exists {A} (P : A -> Prop) l : (forall x, P x \/ ~ P x) -> exists l', picked P l l'.
Proof.
  intros D. induction l as [|x l (l' & IH)]; [exists []; constructor|]. destruct (D x); [exists (x :: l'); apply pk_keep|exists l'; apply pk_drop]; assumption.
Qed.
Lemma in_range_ok d0 d1 d : calendar_date d0 -> calendar_date d1 -> calendar_date d ->
  ((ord d0 <=? ord d) && (ord d <=? ord d1) = true <-> date_le d0 d /\ date_le d d1).
Proof. intros A B C. rewrite andb_true_iff, !Z.leb_le, <- !ord_le by assumption. reflexivity. Qed.

(** ** Names of forecasts *)
Lemma lacks_digits c s : all_digits s -> ~ is_digit c -> lacks c s.
Proof. intros D N. apply digits_lack; assumption. Qed.
Lemma int_from_digits s : forall acc, all_digits s -> int_from acc s = Some (value_from acc s).
Proof.
  induction s as [|c s IH]; intros acc D; [reflexivity|]. apply digits_cons in D as [Dc D]. destruct (is_digit_some c Dc) as (x & E & -> & _).
  cbn [int_from value_from]. rewrite E. apply IH, D.
Qed.
Lemma substring_mid a b c : substring (String.length a) (String.length b) (a ++ b ++ c) = b.
Proof. rewrite substring_app. apply substring_0. Qed.
Lemma hour_of_ok ys ms ds hs h : all_digits ys -> all_digits ms -> all_digits ds -> all_digits hs ->
  String.length ys = 4%nat -> String.length ms = 2%nat -> String.length ds = 2%nat -> String.length hs = 2%nat -> value hs = h -> 0 <= h <= 23 ->
  a_date (value ys, value ms, value ds) -> hour_of (ys ++ ms ++ ds ++ hs ++ "0000") = Some (24 * ord (value ys, value ms, value ds) + h).
Proof.
  intros Dy Dm Dd Dh Ly Lm Ld Lh Vh R [C Y]. unfold hour_of. rewrite !length_app_s, Ly, Lm, Ld, Lh. cbn [Nat.add String.length Nat.eqb].
  assert (E0 : substring 0 4 (ys ++ ms ++ ds ++ hs ++ "0000") = ys) by (rewrite <- Ly; apply substring_0).
  assert (E1 : substring 4 2 (ys ++ ms ++ ds ++ hs ++ "0000") = ms) by (rewrite <- Ly, <- Lm; apply substring_mid).
  assert (E2 : substring 6 2 (ys ++ ms ++ ds ++ hs ++ "0000") = ds).
  { rewrite <- (app_assoc_s ys). replace 6%nat with (String.length (ys ++ ms)) by (rewrite length_app_s; lia). rewrite <- Ld. apply substring_mid. }
  assert (E3 : substring 8 2 (ys ++ ms ++ ds ++ hs ++ "0000") = hs).
  { rewrite <- (app_assoc_s ms), <- (app_assoc_s ys). replace 8%nat with (String.length (ys ++ ms ++ ds)) by (rewrite !length_app_s; lia). rewrite <- Lh. apply substring_mid. }
  assert (E4 : substring 10 4 (ys ++ ms ++ ds ++ hs ++ "0000") = "0000").
  { rewrite <- (app_assoc_s ds), <- (app_assoc_s ms), <- (app_assoc_s ys). replace 10%nat with (String.length (ys ++ ms ++ ds ++ hs)) by (rewrite !length_app_s; lia). rewrite substring_app. reflexivity. }
  rewrite E0, E1, E2, E3, E4. cbn [String.eqb Ascii.eqb andb Bool.eqb].
  rewrite (written_strptime (ys ++ "-" ++ ms ++ "-" ++ ds) (value ys, value ms, value ds)); [| |exact C|exact Y].
  2:{ exists ys, ms, ds. exact (conj eq_refl (conj Dy (conj Dm (conj Dd (conj Ly (conj (or_intror Lm) (conj (or_intror Ld) (conj eq_refl (conj eq_refl eq_refl))))))))). }
  destruct (length_2 hs Lh) as (a & b & ->). apply digits_cons in Dh as [Da Db]. apply digits_cons in Db as [Db _].
  rewrite (proj2 (digits2_some a b h) (conj Da (conj Db (eq_sym Vh)))). destruct (Z.leb_spec h 23); [reflexivity|lia].
Qed.
Lemma made_ok dir f date h n : directory dir -> name_ecmwf dir f date h n -> a_date date ->
  made f = Some (24 * ord date + h) /\ made_for f = Some (24 * ord date + h + n).
Proof.
  destruct date as [[y m] d]. intros Dir (ys & ms & ds & hs & ns & unit & kind & tail & -> & Dy & Dm & Dd & Dh & Dn & Nn & Ly & Lm & Ld & Lh & Lu & Vy & Vm & Vd & Vh & R & Vn & D1 & D2 & D3 & S1 & S2 & S3) A.
  assert (N1 : ~ is_digit "-"%char) by (apply not_digit; cbn; lia). assert (N2 : ~ is_digit "/"%char) by (apply not_digit; cbn; lia).
  assert (Z0 : forall c, ~ is_digit c -> lacks c "0000").
  { intros c N I. apply N. cbn in I. unfold is_digit. repeat (destruct I as [<-|I]; [cbn; lia|]). contradiction. }
  set (t := ys ++ ms ++ ds ++ hs ++ "0000").
  assert (T : forall c, ~ is_digit c -> lacks c t).
  { intros c N. unfold t. rewrite !lacks_app. repeat split; try (apply lacks_digits; assumption). apply Z0, N. }
  assert (B : basename (dir ++ t ++ "-" ++ (ns ++ unit) ++ "-" ++ kind ++ "-" ++ tail) = t ++ "-" ++ (ns ++ unit) ++ "-" ++ kind ++ "-" ++ tail).
  { apply basename_is; [exact Dir|]. rewrite !lacks_app. pose proof (lacks_digits _ _ Dn N2). repeat split; auto; intros [X|[]]; discriminate. }
  unfold made, made_for. rewrite B, split_spl.
  change (t ++ "-" ++ (ns ++ unit) ++ "-" ++ kind ++ "-" ++ tail) with (t ++ String "-" ((ns ++ unit) ++ String "-" (kind ++ String "-" tail))).
  rewrite !spl_app, (spl_free _ t (T _ N1)), (spl_free _ (ns ++ unit)), (spl_free _ kind D2), (spl_free _ tail D3) by (apply lacks_app; split; [apply lacks_digits; assumption|assumption]).
  cbn [app]. assert (H : hour_of t = Some (24 * ord (y, m, d) + h)).
  { subst y m d. apply hour_of_ok; assumption. }
  rewrite H. split; [reflexivity|]. rewrite length_app_s, Lu. replace (String.length ns + 1 - 1)%nat with (String.length ns) by lia. rewrite substring_0.
  assert (I : int_of ns = Some n). { unfold int_of. rewrite (int_from_digits ns 0 Dn). destruct ns; [contradiction|]. rewrite <- Vn. reflexivity. }
  rewrite I. reflexivity.
Qed.

(** ** The order of texts *)
Lemma str_leb_refl a : str_leb a a = true.
Proof. induction a as [|c a IH]; cbn [str_leb]; [reflexivity|]. rewrite Nat.ltb_irrefl, Nat.eqb_refl. exact IH. Qed.
Lemma str_leb_total a : forall b, str_leb a b = true \/ str_leb b a = true.
Proof.
  induction a as [|c a IH]; intros b; [left; reflexivity|]. destruct b as [|d b]; [right; reflexivity|]. cbn [str_leb].
  destruct (Nat.ltb_spec (nat_of_ascii c) (nat_of_ascii d)); [left; reflexivity|]. destruct (Nat.ltb_spec (nat_of_ascii d) (nat_of_ascii c)); [right; reflexivity|].
  assert (E : nat_of_ascii c = nat_of_ascii d) by lia. rewrite E, Nat.eqb_refl. apply IH.
Qed.
Lemma str_leb_trans a : forall b c, str_leb a b = true -> str_leb b c = true -> str_leb a c = true.
Proof.
  induction a as [|x a IH]; intros [|y b] [|z c]; cbn [str_leb]; try discriminate; try reflexivity.
  destruct (Nat.ltb_spec (nat_of_ascii x) (nat_of_ascii y)), (Nat.ltb_spec (nat_of_ascii y) (nat_of_ascii z)), (Nat.ltb_spec (nat_of_ascii x) (nat_of_ascii z)); try reflexivity; try lia; 
    destruct (Nat.eqb_spec (nat_of_ascii x) (nat_of_ascii y)), (Nat.eqb_spec (nat_of_ascii y) (nat_of_ascii z)), (Nat.eqb_spec (nat_of_ascii x) (nat_of_ascii z)); try reflexivity; try discriminate; try lia.
  apply IH.
Qed.
Lemma insert_desc_perm x l : Permutation (x :: l) (insert_desc x l).
Proof. induction l as [|y l IH]; cbn; [reflexivity|]. destruct (str_leb y x); [reflexivity|]. rewrite perm_swap. constructor. exact IH. Qed.
Lemma sorted_desc_perm l : Permutation l (sorted_desc l).
Proof. induction l as [|x l IH]; [constructor|]. cbn. rewrite <- insert_desc_perm. constructor. exact IH. Qed.
Definition desc (a b : string) : Prop := str_leb b a = true.
Lemma insert_desc_sorted x l : StronglySorted desc l -> StronglySorted desc (insert_desc x l).
Proof.
  induction 1 as [|y l H IH F]; cbn; [repeat constructor|]. destruct (str_leb y x) eqn:E.
  - constructor; [constructor; assumption|]. constructor; [exact E|]. eapply Forall_impl; [|exact F]. intros z Z. eapply str_leb_trans; eassumption.
  - constructor; [exact IH|]. rewrite Forall_forall in *. intros z I. apply (Permutation_in z (Permutation_sym (insert_desc_perm x l))) in I as [<-|I]; [|apply F, I].
    destruct (str_leb_total y x) as [T|T]; [congruence|exact T].
Qed.
Lemma sorted_desc_sorted l : StronglySorted desc (sorted_desc l).
Proof. induction l; [constructor|]. cbn. apply insert_desc_sorted. exact IHl. Qed.
Lemma value_from_lt a : forall b x y, all_digits a -> all_digits b -> String.length a = String.length b -> x < y -> value_from x a < value_from y b.
Proof.
  induction a as [|c a IH]; intros [|d b] x y A B L X; try discriminate; [exact X|]. apply digits_cons in A as [A0 A], B as [B0 B]. cbn [value_from]. apply IH; auto.
  unfold is_digit in *. lia.
Qed.
Lemma digits_leb a : forall b x r r', all_digits a -> all_digits b -> String.length a = String.length b -> str_leb (a ++ r) (b ++ r') = true ->
  value_from x a < value_from x b \/ (a = b /\ str_leb r r' = true).
Proof.
  induction a as [|c a IH]; intros [|d b] x r r' A B L X; try discriminate; [right; split; [reflexivity|exact X]|].
  apply digits_cons in A as [A0 A], B as [B0 B]. cbn [append str_leb] in X. injection L as L. unfold is_digit in *.
  destruct (Nat.ltb_spec (nat_of_ascii c) (nat_of_ascii d)); [left; cbn [value_from]; apply value_from_lt; auto; lia|].
  destruct (Nat.eqb_spec (nat_of_ascii c) (nat_of_ascii d)) as [E|]; [|discriminate].
  assert (Ec : c = d) by (rewrite <- (ascii_nat_embedding c), <- (ascii_nat_embedding d), E; reflexivity). subst d.
  cbn [value_from]. destruct (IH b (10 * x + (Z.of_nat (nat_of_ascii c) - 48)) r r' A B L X) as [V|[-> V]]; auto.
Qed.
Lemma prefix_leb p a b : str_leb (p ++ a) (p ++ b) = str_leb a b.
Proof. induction p as [|c p IH]; [reflexivity|]. cbn [append str_leb]. rewrite Nat.ltb_irrefl, Nat.eqb_refl. exact IH. Qed.
Lemma names_agree dir f g df hf nf dg hg ng : directory dir -> name_ecmwf dir f df hf nf -> name_ecmwf dir g dg hg ng -> a_date df -> a_date dg ->
  str_leb f g = true -> 24 * ord df + hf <= 24 * ord dg + hg.
Proof.
  destruct df as [[y m] d], dg as [[y' m'] d']. intros Dir F G A A' L.
  destruct F as (ys & ms & ds & hs & ns & unit & kind & tail & -> & Dy & Dm & Dd & Dh & _ & _ & Ly & Lm & Ld & Lh & _ & Vy & Vm & Vd & Vh & R & _).
  destruct G as (ys' & ms' & ds' & hs' & ns' & unit' & kind' & tail' & -> & Dy' & Dm' & Dd' & Dh' & _ & _ & Ly' & Lm' & Ld' & Lh' & _ & Vy' & Vm' & Vd' & Vh' & R' & _).
  rewrite prefix_leb, !app_assoc_s in L. destruct A as [A _], A' as [A' _]. apply calendar_valid in A, A'. cbn [ord].
  destruct (digits_leb ys ys' 0 _ _ Dy Dy' ltac:(congruence) L) as [V|[Ey V]]; [change (value ys < value ys') in V|].
  { pose proof (ord_lt y m d y' m' d' A A' ltac:(lia)). lia. }
  destruct (digits_leb ms ms' 0 _ _ Dm Dm' ltac:(congruence) V) as [V'|[Em V']]; [change (value ms < value ms') in V'; subst ys'|].
  { pose proof (ord_lt y m d y' m' d' A A' ltac:(lia)). lia. }
  destruct (digits_leb ds ds' 0 _ _ Dd Dd' ltac:(congruence) V') as [W|[Ed W]]; [change (value ds < value ds') in W; subst ys' ms'|].
  { pose proof (ord_lt y m d y' m' d' A A' ltac:(lia)). lia. }
  subst ys' ms' ds'. assert (E : ymd2ord y m d = ymd2ord y' m' d') by congruence. rewrite E.
  destruct (digits_leb hs hs' 0 _ _ Dh Dh' ltac:(congruence) W) as [W'|[Eh W']]; [change (value hs < value hs') in W'; lia|subst hs'; lia].
Qed.

(** ** The forecast chosen *)
Lemma first_before_ok (base : string -> option Z) start l : (forall f, In f l -> exists d, base f = Some d) -> StronglySorted desc l ->
  (forall f g a b, In f l -> In g l -> base f = Some a -> base g = Some b -> str_leb f g = true -> a <= b) ->
  match first_before base start l with
  | Ok c => (exists f, In f l /\ base f = Some c) /\ c < start /\ (forall g d, In g l -> base g = Some d -> d < start -> d <= c)
  | Err e => e = FileNotFoundError /\ forall g d, In g l -> base g = Some d -> start <= d
  end.
Proof.
  intros D H A. induction H as [|f l H IH F]; cbn [first_before]; [split; [reflexivity|intros g d []]|]. destruct (D f (or_introl eq_refl)) as (d & E). unfold reads. rewrite E. cbn [bind].
  destruct (Z.ltb_spec d start) as [L|L].
  - split; [exists f; split; [left; reflexivity|exact E]|]. split; [exact L|]. intros g b [<-|I] G _; [rewrite E in G; injection G as <-; lia|].
    apply (A g f b d); [right; exact I|left; reflexivity|exact G|exact E|]. rewrite Forall_forall in F. apply F, I.
  - specialize (IH (fun f' I => D f' (or_intror I)) (fun f' g a b I J => A f' g a b (or_intror I) (or_intror J))).
    fold (reads base) in IH |- *. destruct (first_before base start l) as [c|e].
    + destruct IH as ((g & I & G) & Lc & M). split; [exists g; split; [right; exact I|exact G]|]. split; [exact Lc|].
      intros g' b [<-|I'] G' Lb; [rewrite E in G'; injection G' as <-; lia|exact (M g' b I' G' Lb)].
    + destruct IH as [-> M]. split; [reflexivity|]. intros g b [<-|I] G; [rewrite E in G; injection G as <-; exact L|exact (M g b I G)].
Qed.
Lemma pick_filter {A} (p : A -> res bool) (q : A -> bool) l : (forall x, In x l -> p x = Ok (q x)) -> pick p l = Ok (filter q l).
Proof.
  induction l as [|x l IH]; intros H; [reflexivity|]. cbn [pick filter]. rewrite (H x (or_introl eq_refl)), IH by (intros y I; apply H; right; exact I). reflexivity.
Qed.
Lemma filter_perm {A} (q : A -> bool) l l' : Permutation l l' -> Permutation (filter q l) (filter q l').
Proof.
  induction 1; cbn; [constructor|destruct (q x); [constructor; assumption|assumption]| |eapply perm_trans; eassumption].
  destruct (q x), (q y); try reflexivity. apply perm_swap.
Qed.
Lemma filter_picked {A} (q : A -> bool) (P : A -> Prop) l : (forall x, In x l -> (q x = true <-> P x)) -> picked P l (filter q l).
Proof.
  induction l as [|x l IH]; intros H; [constructor|]. cbn [filter]. assert (R : picked P l (filter q l)) by (apply IH; intros y I; apply H; right; exact I).
  destruct (q x) eqn:E; [apply pk_keep; [apply H; [left; reflexivity|exact E]|exact R]|apply pk_drop; [|exact R]].
  intros X. apply H in X; [congruence|left; reflexivity].
Qed.
Lemma picked_in {A} (P : A -> Prop) l l' : picked P l l' -> forall x, In x l' <-> In x l /\ P x.
Proof.
  induction 1 as [|x l l' Px K IH|x l l' Px K IH]; intros y; cbn; [tauto| |]; rewrite IH; split.
  - intros [<-|[I Q]]; auto.
  - intros [[<-|I] Q]; auto.
  - intros [I Q]; auto.
  - intros [[<-|I] Q]; [contradiction|auto].
Qed.
Lemma filter_filter {A} (p q : A -> bool) l : filter q (filter p l) = filter (fun x => p x && q x) l.
Proof. induction l as [|x l IH]; [reflexivity|]. cbn. destruct (p x); cbn; rewrite IH; reflexivity. Qed.

(** ** IceNet *)
Lemma candidates_ok t l : forall r, icenet_candidates t l = Ok r ->
  (forall d f, In (d, f) r <-> In f l /\ icenet_date f = Ok d /\ d < t).
Proof.
  induction l as [|g l IH]; intros r E d f; cbn [icenet_candidates] in E; [injection E as <-; cbn; tauto|].
  destruct (icenet_date g) as [dg|] eqn:G; [|discriminate]. cbn [bind] in E. destruct (icenet_candidates t l) as [r'|] eqn:E'; [|discriminate]. injection E as <-.
  specialize (IH r' eq_refl). destruct (Z.ltb_spec dg t) as [L|L]; cbn [In]; rewrite IH; split.
  - intros [X|(I & D & Q)]; [injection X as <- <-; auto|auto].
  - intros ([<-|I] & D & Q); [rewrite G in D; injection D as <-; auto|auto].
  - intros (I & D & Q); auto.
  - intros ([<-|I] & D & Q); [rewrite G in D; injection D as <-; lia|auto].
Qed.
Lemma latest_ok l : match latest l with
  | Some (d, f) => In (d, f) l /\ forall d' f', In (d', f') l -> d' <= d
  | None => l = []
  end.
Proof.
  induction l as [|[d f] l IH]; [reflexivity|]. cbn [latest]. destruct (latest l) as [[d' f']|].
  - destruct IH as [I M]. destruct (Z.ltb_spec d' d) as [L|L]; (split; [(left; reflexivity) || (right; exact I)|]); intros d2 f2 [X|J]; try (injection X as <- <-); try (specialize (M d2 f2 J)); lia.
  - subst l. split; [left; reflexivity|]. intros d2 f2 [X|[]]. injection X as <- <-. lia.
Qed.
Lemma candidates_total t l : (forall f, In f l -> exists d, icenet_date f = Ok d) -> exists r, icenet_candidates t l = Ok r.
Proof.
  induction l as [|g l IH]; intros H; [exists []; reflexivity|]. destruct (H g (or_introl eq_refl)) as (d & E). destruct (IH (fun f I => H f (or_intror I))) as (r & R).
  cbn [icenet_candidates]. rewrite E, R. cbn [bind]. eauto.
Qed.
Lemma search_ok times t : forall n k, 
  match search times t k n with
  | Some a => k <= a < k + Z.of_nat n /\ In (t - a) times /\ forall b, k <= b < a -> ~ In (t - b) times
  | None => forall b, k <= b < k + Z.of_nat n -> ~ In (t - b) times
  end.
Proof.
  induction n as [|n IH]; intros k; cbn [search]; [intros b B; lia|].
  destruct (existsb (Z.eqb (t - k)) times) eqn:E.
  - apply existsb_exists in E as (x & I & X). apply Z.eqb_eq in X. subst x. split; [lia|]. split; [exact I|]. intros b B; lia.
  - assert (N : ~ In (t - k) times).
    { intros I. assert (existsb (Z.eqb (t - k)) times = true) by (apply existsb_exists; exists (t - k); split; [exact I|apply Z.eqb_refl]). congruence. }
    specialize (IH (k + 1)). destruct (search times t (k + 1) n) as [a|].
    + destruct IH as (R & I & M). split; [lia|]. split; [exact I|]. intros b B. destruct (Z.eq_dec b k) as [->|]; [exact N|apply M; lia].
    + intros b B. destruct (Z.eq_dec b k) as [->|]; [exact N|apply IH; lia].
Qed.
Lemma zrange_in a b x : In x (zrange a b) <-> a <= x < b.
Proof.
  unfold zrange. rewrite in_map_iff. split; [intros (k & <- & I); apply in_seq in I; lia|]. intros R. exists (Z.to_nat (x - a)). split; [lia|apply in_seq; lia].
Qed.
Lemma zrange_shift a b c : map (fun x => c + x) (zrange a b) = zrange (c + a) (c + b).
Proof. unfold zrange. rewrite map_map. replace (c + b - (c + a)) with (b - a) by lia. apply map_ext. intros k. lia. Qed.

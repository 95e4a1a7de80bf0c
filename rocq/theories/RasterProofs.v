(** Proofs about raster export. *)
From Coq Require Import Qround Qfield.
From Verif Require Import Base QLib Geo Graph Cell Builder Env Config Spec MeshSpec EnvSpec EnvQuery ParamProofs Validate ValidateSpec ValidateProofs Raster RasterSpec.
Open Scope Z_scope.

Lemma inject_neq0 n : 0 < n -> ~ (inject_Z n == 0)%Q.
Proof. intros H X. unfold Qeq in X. cbn in X. lia. Qed.
Lemma zrange_length n : List.length (zrange n) = Z.to_nat n.
Proof. unfold zrange. rewrite map_length, seq_length. reflexivity. Qed.
Lemma zrange_nth n i : (i < Z.to_nat n)%nat -> nth_error (zrange n) i = Some (Z.of_nat i).
Proof.
  intros H. unfold zrange. rewrite nth_error_map. rewrite (nth_error_nth' _ 0%nat) by (rewrite seq_length; exact H).
  rewrite seq_nth by exact H. reflexivity.
Qed.
Lemma Qceiling_Z q z : (q == inject_Z z)%Q -> Qceiling q = z.
Proof. intros H. rewrite (Qceiling_comp _ _ H). apply Qceiling_Z. Qed.

(** [arange] over [n] steps *)
Lemma arange_steps start stop n : 0 < n -> ~ (start == stop)%Q ->
  forall step, (step == (stop - start) / inject_Z n)%Q ->
  arange start stop step = Ok (map (fun i => start + inject_Z i * step)%Q (zrange n)).
Proof.
  intros Hn N step E. assert (~ (inject_Z n == 0)%Q) as Hn0.
  { apply inject_neq0, Hn. }
  assert (~ (step == 0)%Q) as S0.
  { rewrite E. intros X. apply N. assert (stop - start == (stop - start) / inject_Z n * inject_Z n)%Q as Y by (field; exact Hn0).
    rewrite X in Y. rewrite Qmult_0_l in Y. lra. }
  unfold arange. destruct (qeqb step 0) eqn:Z; [apply qeqb_true in Z; contradiction|].
  rewrite (Qceiling_Z _ n); [reflexivity|]. rewrite E. field. split; [exact Hn0|lra].
Qed.

Lemma concat_nth {A} : forall (rows : list (list A)) w i j, (forall r, In r rows -> List.length r = w) -> (j < w)%nat ->
  nth_error (List.concat rows) (i * w + j) = match nth_error rows i with Some r => nth_error r j | None => None end.
Proof.
  induction rows as [|r rows IH]; intros w i j H L; [destruct i; cbn; try reflexivity|].
  - destruct j; reflexivity.
  - destruct ((w + i * w + j)%nat); reflexivity.
  - pose proof (H r (or_introl eq_refl)) as E. destruct i as [|i]; cbn [List.concat nth_error].
    + cbn [Nat.mul Nat.add]. rewrite nth_error_app1 by lia. reflexivity.
    + rewrite nth_error_app2 by (rewrite E; lia). rewrite E. replace (S i * w + j - w)%nat with (i * w + j)%nat by lia.
      apply IH; [intros x I; apply H; right; exact I|exact L].
Qed.
Lemma concat_length {A} : forall (rows : list (list A)) w, (forall r, In r rows -> List.length r = w) ->
  List.length (List.concat rows) = (List.length rows * w)%nat.
Proof.
  induction rows as [|r rows IH]; intros w H; [reflexivity|]. cbn [List.concat List.length]. rewrite app_length, (H r (or_introl eq_refl)), (IH w); [lia|].
  intros x I; apply H; right; exact I.
Qed.
Lemma reshape_at {A} : forall (l : list A) nlines ncols r c, is_pixel nlines ncols r c ->
  at_pixel (reshape l (Z.to_nat nlines) (Z.to_nat ncols)) r c = nth_error l (Z.to_nat (r * ncols + c)).
Proof.
  intros l nlines ncols r c (H1 & H2). unfold at_pixel, reshape. rewrite nth_error_map.
  rewrite (nth_error_nth' _ 0%nat) by (rewrite seq_length; lia). rewrite seq_nth by lia. cbn [option_map Nat.add].
  assert (forall n (x : list A) i, (i < n)%nat -> nth_error (firstn n x) i = nth_error x i) as F.
  { induction n as [|n IH]; intros x i L; [lia|]. destruct x; [reflexivity|]. destruct i; [reflexivity|]. cbn. apply IH. lia. }
  assert (forall n (x : list A) i, nth_error (skipn n x) i = nth_error x (n + i)) as G.
  { induction n as [|n IH]; intros x i; [reflexivity|]. destruct x; [destruct i; reflexivity|]. cbn. apply IH. }
  rewrite F by lia. rewrite G. f_equal. nia.
Qed.

Definition sample_lat (b : boundary) (ncols i : Z) : Q := (lat_max b + inject_Z i * (-1 * pixel_height b ncols) - (1#2) * pixel_height b ncols)%Q.
Definition sample_long (b : boundary) (nlines j : Z) : Q := (long_min b + inject_Z j * pixel_width b nlines + (1#2) * pixel_width b nlines)%Q.

Theorem samples_at : forall b nlines ncols, 0 < nlines -> 0 < ncols -> ~ (lat_min b == lat_max b)%Q -> ~ (long_min b == long_max b)%Q ->
  exists ss, generate_samples b nlines ncols = Ok ss /\ Z.of_nat (List.length ss) = nlines * ncols /\
    forall i j, 0 <= i < ncols -> 0 <= j < nlines ->
      nth_error ss (Z.to_nat (i * nlines + j)) = Some (sample_lat b ncols i, sample_long b nlines j).
Proof.
  intros b nlines ncols Hl Hc Nlat Nlong.
  set (rows := map (fun lat => map (fun long => (lat - (1#2) * pixel_height b ncols, long + (1#2) * pixel_width b nlines)%Q)
                (map (fun j => long_min b + inject_Z j * pixel_width b nlines)%Q (zrange nlines)))
               (map (fun i => lat_max b + inject_Z i * (-1 * pixel_height b ncols))%Q (zrange ncols))).
  assert (forall r, In r rows -> List.length r = Z.to_nat nlines) as W.
  { intros r I. unfold rows in I. apply in_map_iff in I. destruct I as (x & <- & _). rewrite !map_length. apply zrange_length. }
  assert (List.length rows = Z.to_nat ncols) as L by (unfold rows; rewrite !map_length; apply zrange_length).
  exists (List.concat rows). split; [|split].
  - unfold generate_samples. assert ((ncols =? 0) || (nlines =? 0) = false) as ->.
    { apply orb_false_iff. split; apply Z.eqb_neq; lia. }
    rewrite (arange_steps _ _ ncols Hc); [cbn [bind]| lra |].
    + rewrite (mapM_map _ (fun lat => map (fun long => (lat - (1#2) * pixel_height b ncols, long + (1#2) * pixel_width b nlines)%Q)
                (map (fun j => long_min b + inject_Z j * pixel_width b nlines)%Q (zrange nlines)))).
      * cbn [bind]. fold rows. assert (Z.of_nat (List.length (List.concat rows)) =? nlines * ncols = true) as ->; [|reflexivity].
        apply Z.eqb_eq. rewrite (concat_length _ _ W), L. nia.
      * intros lat _. rewrite (arange_steps _ _ nlines Hl); [reflexivity|exact Nlong|]. unfold pixel_width. reflexivity.
    + unfold pixel_height. field. apply inject_neq0, Hc.
  - rewrite (concat_length _ _ W), L. nia.
  - intros i j Hi Hj. replace (Z.to_nat (i * nlines + j)) with (Z.to_nat i * Z.to_nat nlines + Z.to_nat j)%nat by nia.
    rewrite (concat_nth _ _ _ _ W) by lia. unfold rows. rewrite !nth_error_map, zrange_nth by lia. cbn [option_map].
    rewrite !nth_error_map, zrange_nth by lia. cbn [option_map]. rewrite !Z2Nat.id by lia. reflexivity.
Qed.

(** Pixel (r, c) holds sample r * ncols + c, which belongs to another position
    unless the image is square. *)
Theorem pixel_sample : forall b nlines ncols, 0 < nlines -> 0 < ncols -> ~ (lat_min b == lat_max b)%Q -> ~ (long_min b == long_max b)%Q ->
  exists ss, generate_samples b nlines ncols = Ok ss /\ Z.of_nat (List.length ss) = nlines * ncols /\
    forall r c, is_pixel nlines ncols r c -> let k := r * ncols + c in
      nth_error ss (Z.to_nat k) = Some (sample_lat b ncols (k / nlines), sample_long b nlines (k mod nlines)).
Proof.
  intros b nlines ncols Hl Hc N1 N2. destruct (samples_at b nlines ncols Hl Hc N1 N2) as (ss & E & L & H).
  exists ss. split; [exact E|]. split; [exact L|]. intros r c (Hr & Hcc) k.
  assert (0 <= k < nlines * ncols) as K by (unfold k; nia).
  rewrite <- H.
  - f_equal. f_equal. rewrite (Z.div_mod k nlines) at 1 by lia. lia.
  - split; [apply Z.div_pos; lia|]. apply Z.div_lt_upper_bound; lia.
  - apply Z.mod_pos_bound. lia.
Qed.
Lemma sample_lat_centre b n i : (sample_lat b n i == centre_lat b n i)%Q.
Proof. unfold sample_lat, centre_lat, pixel_height. ring. Qed.
Lemma sample_long_centre b n i : (sample_long b n i == centre_long b n i)%Q.
Proof. unfold sample_long, centre_long, pixel_width. ring. Qed.

(** Pixel (0, 0) alone decides. *)
Lemma first_pixel b nlines ncols : 0 < nlines -> 0 < ncols -> ~ (lat_min b == lat_max b)%Q ->
  (centre_lat b ncols 0 == centre_lat b nlines 0)%Q -> nlines = ncols.
Proof.
  intros Hl Hc N E. pose proof (inject_neq0 nlines Hl) as X. pose proof (inject_neq0 ncols Hc) as Y. unfold centre_lat in E.
  change (inject_Z 0) with 0%Q in E.
  set (h := (lat_max b - lat_min b)%Q) in *.
  assert (h / inject_Z ncols == h / inject_Z nlines)%Q as E1 by lra.
  assert (h * inject_Z nlines == h * inject_Z ncols)%Q as E2.
  { setoid_replace (h * inject_Z nlines)%Q with (h / inject_Z ncols * inject_Z ncols * inject_Z nlines)%Q by (field; exact Y).
    rewrite E1. field. exact X. }
  assert (inject_Z nlines == inject_Z ncols)%Q as E3.
  { assert (~ h == 0)%Q as H0 by (unfold h; lra). exact (proj1 (Qmult_inj_l _ _ h H0) E2). }
  unfold Qeq in E3. cbn in E3. lia.
Qed.

Lemma geo_at b nlines ncols r c :
  let g := georeferenced (get_geo_transform (long_min b, lat_min b, long_max b, lat_max b) nlines ncols) r c in
  (fst g == centre_long b ncols c /\ snd g == centre_lat b nlines r)%Q.
Proof. cbn [georeferenced get_geo_transform nth fst snd]. unfold centre_long, centre_lat. split; ring. Qed.

(** Values *)
Lemma contains_point_comp c lat lat' long long' : (lat == lat')%Q -> (long == long')%Q -> plane_bounds (e_bounds c) ->
  contains_point c lat long = contains_point c lat' long'.
Proof.
  intros E1 E2 P. apply eq_true_iff_eq. rewrite !(contains_plane c) by exact P. unfold interior. rewrite E1, E2. reflexivity.
Qed.
Lemma mapM_nth {A B} : forall (f : A -> res B) l vs, mapM f l = Ok vs -> forall k x, nth_error l k = Some x ->
  exists v, f x = Ok v /\ nth_error vs k = Some v.
Proof.
  induction l as [|a l IH]; intros vs E k x N; [destruct k; discriminate|]. cbn [mapM] in E.
  destruct (f a) as [v|] eqn:F; [|discriminate]. cbn [bind] in E. destruct (mapM f l) as [vs'|] eqn:M; [|discriminate]. cbn [bind] in E.
  injection E as <-. destruct k; cbn in N |- *; [injection N as ->; exists v; split; [exact F|reflexivity]|]. eapply IH; [reflexivity|exact N].
Qed.
Lemma mapM_total {A B} : forall (f : A -> res B) l, (forall x, In x l -> exists v, f x = Ok v) -> exists vs, mapM f l = Ok vs.
Proof.
  induction l as [|a l IH]; intros H; [eexists; reflexivity|]. destruct (H a (or_introl eq_refl)) as (v & E).
  destruct IH as (vs & F); [intros x I; apply H; right; exact I|]. exists (v :: vs). cbn [mapM]. rewrite E. cbn [bind]. rewrite F. reflexivity.
Qed.
Definition numeric (cs : list ecell) (name : string) : Prop :=
  forall c, In c cs -> exists v, sget (e_data c) name = Some (JNum v).
Lemma sample_value : forall cs name s, numeric cs name -> plane_cells cs ->
  (exists c v, In c cs /\ interior (region (e_bounds c)) (snd s) (fst s) /\ sget (e_data c) name = Some (JNum v) /\ get_sample_value cs name s = Ok v) \/
  ((forall c, In c cs -> ~ interior (region (e_bounds c)) (snd s) (fst s)) /\ get_sample_value cs name s = Ok None).
Proof.
  intros cs name s N P. unfold get_sample_value. destruct (find _ cs) as [c|] eqn:F.
  - left. apply find_some in F. destruct F as [I E]. destruct (N c I) as (v & V). exists c, v. rewrite V.
    split; [exact I|]. split; [apply (contains_plane c _ _ (proj2 P c I)), E|]. split; reflexivity.
  - right. split; [|reflexivity]. intros c I Int. apply find_none with (x := c) in F; [|exact I].
    rewrite (proj2 (contains_plane c _ _ (proj2 P c I)) Int) in F. discriminate.
Qed.

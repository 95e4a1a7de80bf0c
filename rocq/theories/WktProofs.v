(** The text form of boundaries: proofs for C37. *)
From Verif Require Import Base Geo Graph Cell Builder Env PyStr Wkt Spec MeshSpec EnvSpec GlobeSpec QLib EnvJson GlobeProofs StrLib.
Open Scope string_scope.

(** Text made of the characters numbers are written with. *)
Definition number_text (s : string) : Prop :=
  forall c, In c (list_ascii_of_string s) -> In c (list_ascii_of_string "0123456789+-.eE").
(** [q] is written as a number and read back as the same number. *)
Definition readable (fmt : Q -> string) (float : string -> option Q) (q : Q) : Prop :=
  number_text (fmt q) /\ float (fmt q) = Some q.

Lemma py_nth_0 {A} (a : A) l : py_nth (a :: l) 0 = Ok a.
Proof. reflexivity. Qed.
Lemma py_nth_1 {A} (a b : A) l : py_nth (a :: b :: l) 1 = Ok b.
Proof. reflexivity. Qed.

Section Numbers.
  Context (fmt : Q -> string) (float : string -> option Q).
  Notation readable := (readable fmt float).
  Notation wkt_point := (wkt_point fmt). Notation wkt_ring := (wkt_ring fmt).

  Lemma number_free c s : ~ In c (list_ascii_of_string "0123456789+-.eE") -> number_text s -> free c s.
  Proof. intros N H I. apply N. apply H. exact I. Qed.

  Definition readable_point (p : Q * Q) : Prop := readable (fst p) /\ readable (snd p).

  Lemma point_free c p : readable_point p -> c <> " "%char -> ~ In c (list_ascii_of_string "0123456789+-.eE") -> free c (wkt_point p).
  Proof.
    intros [[A _] [B _]] N M. unfold Wkt.wkt_point. rewrite !free_app. repeat split.
    - apply number_free; auto.
    - apply free_cons. split; auto. apply free_nil.
    - apply number_free; auto.
  Qed.
  Lemma point_coords p : readable_point p ->
    coord float 0 (wkt_point p) = Ok (fst p) /\ coord float 1 (wkt_point p) = Ok (snd p).
  Proof.
    intros [[A A'] [B B']]. unfold coord, Wkt.wkt_point.
    assert (S : split " " (fmt (fst p) ++ " " ++ fmt (snd p)) = [fmt (fst p); fmt (snd p)]).
    { rewrite split_first by (apply number_free; auto; cbn; intuition discriminate). f_equal.
      apply split_none. apply number_free; auto. cbn; intuition discriminate. }
    rewrite S, py_nth_0, py_nth_1. cbn [bind]. rewrite A', B'. split; reflexivity.
  Qed.
  Lemma ring_coords r : (forall p, In p r -> readable_point p) ->
    mapM (coord float 0) (map wkt_point r) = Ok (ring_xs r) /\
    mapM (coord float 1) (map wkt_point r) = Ok (ring_ys r).
  Proof.
    induction r as [|p r IH]; intros H; [split; reflexivity|].
    destruct IH as [I J]; [intros; apply H; right; auto|].
    destruct (point_coords p (H p (or_introl eq_refl))) as [X Y].
    cbn [map mapM ring_xs ring_ys]. rewrite X, Y, I, J. split; reflexivity.
  Qed.
  Lemma ring_free c r : (forall p, In p r -> readable_point p) -> c <> " "%char -> c <> ","%char ->
    ~ In c (list_ascii_of_string "0123456789+-.eE") -> free c (wkt_ring r).
  Proof.
    intros H N1 N2 N3. apply free_join.
    - rewrite !free_cons. auto using free_nil.
    - intros s Hs. apply in_map_iff in Hs as (p & <- & Hp). apply point_free; auto.
  Qed.

  (** A character that numbers do not start with. *)
  Lemma number_lstrip s : number_text s -> s <> "" -> forall t, lstrip (s ++ t) = s ++ t.
  Proof.
    intros H N t. destruct s as [|c s]; [congruence|]. cbn [append lstrip].
    assert (I : In c (list_ascii_of_string "0123456789+-.eE")) by (apply H; left; reflexivity).
    destruct (is_space c) eqn:E; auto. exfalso. cbn in I.
    repeat (destruct I as [<-|I]; [discriminate E|]). exact I.
  Qed.
  Lemma readable_nonempty q : float "" = None -> readable q -> fmt q <> "".
  Proof. intros F [_ E] N. rewrite N in E. congruence. Qed.

  Lemma split_comma r : float "" = None -> r <> [] -> (forall p, In p r -> readable_point p) ->
    map lstrip (split "," (wkt_ring r)) = map wkt_point r.
  Proof.
    intros F N H. unfold Wkt.wkt_ring. destruct r as [|p r]; [congruence|]. cbn [map].
    rewrite join_shift. rewrite split_join; [|discriminate|].
    - assert (L : forall q, In q (p :: r) -> lstrip (wkt_point q) = wkt_point q).
      { intros q Hq. destruct (H q Hq) as [A _]. unfold Wkt.wkt_point. apply number_lstrip; [apply A|].
        apply readable_nonempty; auto. }
      cbn [map]. f_equal; [apply L; left; auto|]. rewrite map_map.
      assert (L' : forall q, In q r -> lstrip (wkt_point q) = wkt_point q) by (intros; apply L; right; auto).
      clear -L'. induction r as [|q r IH]; [reflexivity|]. cbn [map]. f_equal.
      + change (lstrip (String " " (wkt_point q))) with (lstrip (wkt_point q)). apply L'. left; auto.
      + apply IH. intros; apply L'; right; auto.
    - assert (P : forall q, In q (p :: r) -> free "," (wkt_point q)).
      { intros q Hq. apply point_free; auto; [discriminate|cbn; intuition discriminate]. }
      intros s [<-|Hs]; [apply P; left; auto|]. apply in_map_iff in Hs as (u & <- & Hu).
      apply in_map_iff in Hu as (q & <- & Hq). apply free_cons. split; [discriminate|]. apply P. right; auto.
  Qed.

  Lemma qlist_refl l : qlist_eqb l l = true.
  Proof. induction l; cbn; auto. rewrite IHl, andb_true_r. apply qeqb_true. reflexivity. Qed.
  Lemma py_min_ok l : l <> [] -> py_min l = Ok (min_list l).
  Proof. destruct l; [congruence|reflexivity]. Qed.
  Lemma py_max_ok l : l <> [] -> py_max l = Ok (max_list l).
  Proof. destruct l; [congruence|reflexivity]. Qed.
  Lemma map_nonempty {A B} (f : A -> B) l : l <> [] -> map f l <> [].
  Proof. destruct l; [congruence|discriminate]. Qed.

  Lemma from_polygon r : r <> [] -> (forall p, In p r -> readable_point p) ->
    from_poly_string float (wkt fmt (Poly r)) = load_bounds (Poly r).
  Proof.
    intros N H. unfold from_poly_string, wkt.
    assert (M : contains "MULTIPOLYGON" ("POLYGON ((" ++ wkt_ring r ++ "))") = false).
    { unfold contains. rewrite cut_none; [reflexivity|]. rewrite !free_app. repeat split.
      - intros I. cbn in I. intuition discriminate.
      - apply ring_free; auto; try discriminate. cbn; intuition discriminate.
      - intros I. cbn in I. intuition discriminate. }
    rewrite M.
    assert (S1 : split "POLYGON ((" ("POLYGON ((" ++ wkt_ring r ++ "))") = ["" ; wkt_ring r ++ "))"]).
    { rewrite split_cut, cut_here. f_equal. apply split_none. rewrite free_app. split.
      - apply ring_free; auto; try discriminate. cbn; intuition discriminate.
      - intros I. cbn in I. intuition discriminate. }
    rewrite S1. rewrite py_nth_1. cbn [bind].
    assert (S2 : split "))" (wkt_ring r ++ "))") = [wkt_ring r; ""]).
    { replace (wkt_ring r ++ "))") with (wkt_ring r ++ "))" ++ "") by reflexivity.
      rewrite split_first; [reflexivity|]. apply ring_free; auto; try discriminate. cbn; intuition discriminate. }
    rewrite S2. rewrite py_nth_0. cbn [bind].
    assert (S3 : split ", " (wkt_ring r) = map wkt_point r).
    { apply split_join; [apply map_nonempty; auto|]. intros s Hs. apply in_map_iff in Hs as (p & <- & Hp).
      apply point_free; auto; [discriminate|cbn; intuition discriminate]. }
    rewrite S3. destruct (ring_coords r H) as [-> ->]. cbn [bind].
    rewrite !py_min_ok, !py_max_ok by (apply map_nonempty; auto). reflexivity.
  Qed.

  Lemma qlist_eqb_spec l : forall m, qlist_eqb l m = true <-> Forall2 Qeq l m.
  Proof.
    induction l as [|x l IH]; intros [|y m]; cbn [qlist_eqb]; try (split; [discriminate|intros H; inversion H]); [split; [constructor|reflexivity]|].
    rewrite andb_true_iff, IH, qeqb_true. split; [intros []; constructor; assumption|intros H; inversion H; auto].
  Qed.
  Lemma any_multipolygon a b : float "" = None -> a <> [] -> b <> [] ->
    (forall p, In p a -> readable_point p) -> (forall p, In p b -> readable_point p) ->
    from_poly_string float (wkt fmt (MPoly [a; b])) = if qlist_eqb (ring_ys a) (ring_ys b) then load_bounds (MPoly [a; b]) else Err AssertionError.
  Proof.
    intros F Na Nb Ha Hb. unfold from_poly_string, wkt.
    assert (Fr : forall c r, (forall p, In p r -> readable_point p) -> c <> " "%char -> c <> ","%char ->
      ~ In c (list_ascii_of_string "0123456789+-.eE") -> free c (wkt_ring r)) by (intros; apply ring_free; auto).
    set (A := wkt_ring a) in *. set (B := wkt_ring b) in *.
    assert (FA : forall c, c <> " "%char -> c <> ","%char -> ~ In c (list_ascii_of_string "0123456789+-.eE") -> free c A) by (intros; apply Fr; auto).
    assert (FB : forall c, c <> " "%char -> c <> ","%char -> ~ In c (list_ascii_of_string "0123456789+-.eE") -> free c B) by (intros; apply Fr; auto).
    change (join ")), ((" (map wkt_ring [a; b])) with (A ++ ")), ((" ++ B).
    assert (M : contains "MULTIPOLYGON" ("MULTIPOLYGON (((" ++ (A ++ ")), ((" ++ B) ++ ")))") = true).
    { unfold contains. change ("MULTIPOLYGON (((" ++ (A ++ ")), ((" ++ B) ++ ")))") with ("MULTIPOLYGON" ++ (" (((" ++ (A ++ ")), ((" ++ B) ++ ")))")).
      rewrite cut_here. reflexivity. }
    rewrite M.
    assert (S1 : split "MULTIPOLYGON (((" ("MULTIPOLYGON (((" ++ (A ++ ")), ((" ++ B) ++ ")))") = [""; (A ++ ")), ((" ++ B) ++ ")))"]).
    { rewrite split_cut, cut_here. f_equal. apply split_none. rewrite !free_app. repeat split;
        try (apply FA || apply FB; try discriminate; cbn; intuition discriminate); intros I; cbn in I; intuition discriminate. }
    rewrite S1. rewrite py_nth_1. cbn [bind].
    assert (C1 : cut ")))" ((A ++ ")), ((" ++ B) ++ ")))") = Some (A ++ ")), ((" ++ B, "")).
    { rewrite app_assoc_s, cut_skip by (apply FA; try discriminate; cbn; intuition discriminate).
      assert (X : cut ")))" ((")), ((" ++ B) ++ ")))") = Some (")), ((" ++ B, "")).
      { cbn [append cut strip_prefix Ascii.eqb Bool.eqb].
        change (B ++ ")))") with (B ++ ")))" ++ "").
        rewrite cut_first by (apply FB; try discriminate; cbn; intuition discriminate). reflexivity. }
      rewrite X. reflexivity. }
    assert (S2 : split ")))" ((A ++ ")), ((" ++ B) ++ ")))") = [A ++ ")), ((" ++ B; ""]).
    { rewrite split_cut, C1. reflexivity. }
    rewrite S2. rewrite py_nth_0. cbn [bind].
    assert (S3 : split ")), ((" (A ++ ")), ((" ++ B) = [A; B]).
    { rewrite split_first by (apply FA; try discriminate; cbn; intuition discriminate). f_equal. apply split_none.
      apply FB; try discriminate. cbn; intuition discriminate. }
    rewrite S3. unfold A, B. rewrite !split_comma by auto.
    destruct (ring_coords a Ha) as [-> ->], (ring_coords b Hb) as [-> ->]. cbn [bind].
    rewrite !py_min_ok, !py_max_ok by (apply map_nonempty; auto). reflexivity.
  Qed.
  Lemma from_multipolygon a b : float "" = None -> a <> [] -> b <> [] -> ring_ys a = ring_ys b ->
    (forall p, In p a -> readable_point p) -> (forall p, In p b -> readable_point p) ->
    from_poly_string float (wkt fmt (MPoly [a; b])) = load_bounds (MPoly [a; b]).
  Proof. intros F Na Nb E Ha Hb. rewrite any_multipolygon by assumption. rewrite E, qlist_refl. reflexivity. Qed.

  (** The numbers that appear in the text of a boundary. *)
  Definition readable_bounds (b : boundary) : Prop :=
    readable (lat_min b) /\ readable (lat_max b) /\ readable (long_min b) /\ readable (long_max b) /\
    readable 180%Q /\ readable (-180)%Q.
  Lemma rect_readable w s e n : readable w -> readable s -> readable e -> readable n ->
    forall p, In p (rect_ring w s e n) -> readable_point p.
  Proof. intros ? ? ? ? p [<-|[<-|[<-|[<-|[<-|[]]]]]]; split; auto. Qed.

  Lemma string_is_polygon b : float "" = None -> readable_bounds b ->
    from_poly_string float (to_poly_string fmt b) = load_bounds (to_polygon b).
  Proof.
    intros F (R1 & R2 & R3 & R4 & R5 & R6). unfold to_poly_string, to_polygon.
    repeat match goal with |- context [if ?c then _ else _] => destruct c end.
    1-3: apply from_polygon; [discriminate|]; apply rect_readable; auto.
    apply from_multipolygon; auto; try discriminate; apply rect_readable; auto.
  Qed.
End Numbers.

(** Equality of rings' extrema up to [==], also for degenerate rectangles. *)
Lemma min_rect_q a b : (a <= b)%Q -> (min_list [a; a; b; b; a] == a /\ min_list [a; b; b; a; a] == a)%Q.
Proof. intros. rewrite min_rect, min_rect' by auto. split; reflexivity. Qed.
Lemma fold_max_same l : forall x c, (x == c)%Q -> (forall y, In y l -> y == c)%Q -> (fold_left qmax l x == c)%Q.
Proof.
  induction l as [|y l IH]; cbn; auto. intros x c E H. apply IH.
  - unfold qmax. destruct (qltb x y); auto.
  - intros; apply H; auto.
Qed.
Lemma max_rect_q a b : (a <= b)%Q -> (max_list [a; a; b; b; a] == b /\ max_list [a; b; b; a; a] == b)%Q.
Proof.
  intros L. destruct (Qlt_le_dec a b).
  - rewrite max_rect, max_rect' by auto. split; reflexivity.
  - split; apply fold_max_same; try lra; cbn; intros y I; repeat (destruct I as [<-|I]; [lra|]); destruct I.
Qed.

Lemma Boundary_makes' la lb oa ob : (la <= lb -> -180 <= oa -> ob <= 180 ->
  Boundary [la; lb] [oa; ob] [] = Ok (mkB la lb oa ob []))%Q.
Proof. intros. apply Boundary_makes; auto. left; auto. Qed.

(** Regions given by the same numbers, or shifted by a turn, are the same. *)
Lemma within_globe_same (r s : box) (k : Z) :
  (x0 r == x0 s + inject_Z k * 360 -> x1 r == x1 s + inject_Z k * 360 -> y0 r == y0 s -> y1 r == y1 s ->
   forall x y, within_globe r x y <-> within_globe s x y)%Q.
Proof.
  intros A B C D x y. split; intros (l & H).
  - exists (l - k)%Z. unfold within in *. unfold Z.sub. rewrite inject_Z_plus, inject_Z_opp. lra.
  - exists (l + k)%Z. unfold within in *. rewrite inject_Z_plus. lra.
Qed.

Lemma load_polygon b : meaningful b -> exists b', load_bounds (to_polygon b) = Ok b' /\ time_range b' = [] /\
  (forall x y, within_globe (region b') x y <-> within_globe (region b) x y) /\
  (long_min b < 180 -> -180 < long_max b ->
    lat_min b' == lat_min b /\ lat_max b' == lat_max b /\ long_min b' == long_min b /\ long_max b' == long_max b)%Q.
Proof.
  intros (H & A & B & N). unfold in_domain in *.
  assert (RR : forall w s e n, (w <= e -> s <= n ->
     min_list (ring_xs (rect_ring w s e n)) == w /\ max_list (ring_xs (rect_ring w s e n)) == e /\
     min_list (ring_ys (rect_ring w s e n)) == s /\ max_list (ring_ys (rect_ring w s e n)) == n)%Q).
  { intros w s e n L1 L2. unfold ring_xs, ring_ys, rect_ring. cbn [map fst snd].
    destruct (min_rect_q w e L1), (max_rect_q w e L1), (min_rect_q s n L2), (max_rect_q s n L2). auto. }
  unfold to_polygon. destruct (qltb_spec (long_min b) (long_max b)) as [L|L];
    [|destruct (qeqb_spec (long_min b) 180) as [E|E]; [|destruct (qeqb_spec (long_max b) (-180)) as [E'|E']]];
    cbn [load_bounds].
  - destruct (RR (long_min b) (lat_min b) (long_max b) (lat_max b)) as (X & Y & Z & T); try lra.
    rewrite Boundary_makes' by lra. eexists. split; [reflexivity|]. split; [reflexivity|]. split.
    + apply within_globe_same with 0%Z; change (inject_Z 0) with 0%Q; unfold region; cbn [x0 x1 y0 y1 lat_min lat_max long_min long_max]; qsplit; lra.
    + intros _ _. cbn [lat_min lat_max long_min long_max]. lra.
  - destruct (RR (-180)%Q (lat_min b) (long_max b) (lat_max b)) as (X & Y & Z & T); try lra.
    rewrite Boundary_makes' by lra. eexists. split; [reflexivity|]. split; [reflexivity|]. split.
    + assert (L' : (-180 < long_max b)%Q). { apply Qnot_le_lt. intro Q. apply N. split; lra. }
      apply within_globe_same with (-1)%Z; change (inject_Z (-1)) with (-1)%Q; unfold region; cbn [x0 x1 y0 y1 lat_min lat_max long_min long_max]; qsplit; lra.
    + intros; exfalso; lra.
  - destruct (RR (long_min b) (lat_min b) 180%Q (lat_max b)) as (X & Y & Z & T); try lra.
    rewrite Boundary_makes' by lra. eexists. split; [reflexivity|]. split; [reflexivity|]. split.
    + apply within_globe_same with 0%Z; change (inject_Z 0) with 0%Q; unfold region; cbn [x0 x1 y0 y1 lat_min lat_max long_min long_max]; qsplit; lra.
    + intros; exfalso; lra.
  - destruct (RR (long_min b) (lat_min b) 180%Q (lat_max b)) as (X & Y & Z & T); try lra.
    destruct (RR (-180)%Q (lat_min b) (long_max b) (lat_max b)) as (X' & Y' & Z' & T'); try lra.
    rewrite Boundary_makes' by lra. eexists. split; [reflexivity|]. split; [reflexivity|]. split.
    + apply within_globe_same with 0%Z; change (inject_Z 0) with 0%Q; unfold region; cbn [x0 x1 y0 y1 lat_min lat_max long_min long_max]; qsplit; lra.
    + intros _ _. cbn [lat_min lat_max long_min long_max]. lra.
Qed.

(** Model of the choice of data files by date: the era5_*.py loaders and duacs_current.py
    (the lines [self.files = ...]), scalar/amsr.py 55-95, scalar/ecmwf_sig_wave_height.py
    22-83 and scalar/icenet.py 27-104.  No proofs here.

    A time range is two day ordinals; the contents of files are not modelled. *)
From Verif Require Import Base PyStr Dates.
Open Scope string_scope.
Open Scope Z_scope.

Definition file_date (s : string) : res Z :=
  match strptime s with Some (y, m, d) => Ok (ymd2ord y m d) | None => Err ValueError end.
(** [[f for f in l if p(f)]] where [p] may raise *)
Fixpoint pick {A} (p : A -> res bool) (l : list A) : res (list A) :=
  match l with
  | [] => Ok []
  | x :: l' => b <- p x ;; r <- pick p l' ;; Ok (if b : bool then x :: r else r)
  end.
Definition basename (f : string) : string := last (split "/" f) "".
(** [s[10:-3]] *)
Definition middle (s : string) : string := substring 10 (String.length s - 3 - 10) s.

(** era5_sig_wave_height.py 22-31 and alike: [xr.open_mfdataset([])] raises OSError. *)
Definition era5_files (t0 t1 : Z) (files : list string) : res (list string) :=
  fs <- pick (fun f => d <- file_date (middle (basename f)) ;; Ok ((t0 <=? d) && (d <=? t1))) files ;;
  match fs with [] => Err OSError | _ => Ok fs end.

(** amsr.py 55-62 [retrieve_date] *)
Definition amsr_date (f : string) : res Z :=
  match rev (split "-" f) with
  | _ :: date :: _ => file_date (substring 0 4 date ++ "-" ++ substring 4 2 date ++ "-" ++ substring 6 (String.length date - 6) date)
  | _ => Err IndexError
  end.
(** amsr.py 73-90 *)
Definition amsr_files (t0 t1 : Z) (files : list string) : res (list string) :=
  fs <- pick (fun f => d <- amsr_date f ;; Ok ((t0 <=? d) && (d <=? t1))) files ;;
  match fs with [] => Err FileNotFoundError | _ => Ok fs end.

(** ecmwf_sig_wave_height.py 22-83: [base] reads the hour a forecast was made from a file's
    name (extract_base_date), [valid] the hour it is for (calculate_timestamp); both raise
    ValueError (None) if the name is not understood.  Names are sorted by their
    characters. *)
Fixpoint str_leb (a b : string) : bool :=
  match a, b with
  | "", _ => true
  | String _ _, "" => false
  | String c a', String d b' =>
      if Nat.ltb (nat_of_ascii c) (nat_of_ascii d) then true
      else if Nat.eqb (nat_of_ascii c) (nat_of_ascii d) then str_leb a' b' else false
  end.
Fixpoint insert_desc (x : string) (l : list string) : list string :=
  match l with [] => [x] | y :: l' => if str_leb y x then x :: y :: l' else y :: insert_desc x l' end.
Definition sorted_desc (l : list string) : list string := fold_right insert_desc [] l.
Section Ecmwf.
  Context (base valid : string -> option Z).
  Definition reads (f : string -> option Z) (s : string) : res Z := match f s with Some d => Ok d | None => Err ValueError end.
  Fixpoint first_before (start : Z) (l : list string) : res Z :=
    match l with
    | [] => Err FileNotFoundError
    | f :: l' => d <- reads base f ;; if d <? start then Ok d else first_before start l'
    end.
  Definition ecmwf_files (start stop : Z) (files : list string) : res (list string) :=
    let files := sorted_desc files in
    closest <- first_before start files ;;
    files <- pick (fun f => d <- reads base f ;; Ok (d =? closest)) files ;;
    fs <- pick (fun f => t <- reads valid f ;; Ok ((start <=? t) && (t <=? stop))) files ;;
    match fs with [] => Err FileNotFoundError | _ => Ok fs end.
End Ecmwf.

(** ecmwf_sig_wave_height.py 22-26, as the number of the hour.  Only names with fourteen
    characters before the first dash are read here; strptime also takes some shorter ones. *)
Definition hour_of (t : string) : option Z :=
  if Nat.eqb (String.length t) 14 && String.eqb (substring 10 4 t) "0000" then
    match strptime (substring 0 4 t ++ "-" ++ substring 4 2 t ++ "-" ++ substring 6 2 t), substring 8 2 t with
    | Some (y, m, d), String a (String b "") =>
        match digits2 a b with Some h => if h <=? 23 then Some (24 * ymd2ord y m d + h) else None | None => None end
    | _, _ => None
    end
  else None.
Definition made (f : string) : option Z := match split "-" (basename f) with t :: _ => hour_of t | [] => None end.
(** ecmwf_sig_wave_height.py 28-42.  [int] is taken of digits only. *)
Fixpoint int_from (acc : Z) (s : string) : option Z :=
  match s with "" => Some acc | String c s' => match digit c with Some x => int_from (10 * acc + x) s' | None => None end end.
Definition int_of (s : string) : option Z := match s with "" => None | _ => int_from 0 s end.
Definition made_for (f : string) : option Z :=
  match split "-" (basename f) with
  | [t; ahead; _; _] =>
      match int_of (substring 0 (String.length ahead - 1) ahead), hour_of t with Some n, Some h => Some (h + n) | _, _ => None end
  | _ => None
  end.
(** The time range is from midnight to midnight (line 54-55). *)
Definition ecmwf (t0 t1 : Z) (files : list string) : res (list string) := ecmwf_files made made_for (24 * t0) (24 * t1) files.

(** icenet.py 27-36 [filename_to_datetime] *)
Definition icenet_date (f : string) : res Z :=
  match split "." f with _ :: date :: _ => file_date date | _ => Err IndexError end.
(** icenet.py 42-48: the dictionary keeps the last file of a date; [max] of nothing raises
    ValueError. *)
Fixpoint icenet_candidates (min_time : Z) (files : list string) : res (list (Z * string)) :=
  match files with
  | [] => Ok []
  | f :: l => d <- icenet_date f ;; r <- icenet_candidates min_time l ;; Ok (if d <? min_time then (d, f) :: r else r)
  end.
Fixpoint latest (l : list (Z * string)) : option (Z * string) :=
  match l with
  | [] => None
  | (d, f) :: l' => match latest l' with Some (d', f') => if d' <? d then Some (d, f) else Some (d', f') | None => Some (d, f) end
  end.
Definition icenet_file (min_time : Z) (files : list string) : res (Z * string) :=
  l <- icenet_candidates min_time files ;; match latest l with Some p => Ok p | None => Err ValueError end.
(** icenet.py 50-97: [times] are the days of the forecasts in the file, each reaching
    [leads] days ahead (lead times 1 to [leads]); the result is the lead times read and the
    day of the forecast. *)
Fixpoint search (times : list Z) (min_time : Z) (days_ago : Z) (n : nat) : option Z :=
  match n with
  | O => None
  | S n' => if existsb (Z.eqb (min_time - days_ago)) times then Some days_ago else search times min_time (days_ago + 1) n'
  end.
Definition zrange (a b : Z) : list Z := map (fun k => a + Z.of_nat k) (seq 0 (Z.to_nat (b - a))).
Definition icenet_leads (t0 t1 closest : Z) (times : list Z) (leads : Z) : res (Z * list Z) :=
  if negb (t1 - t0 <? leads) then Err AssertionError
  else if negb (t1 <? closest + leads) then Err AssertionError
  else match search times t0 1 (Z.to_nat leads) with
       | None => Err EOFError
       | Some days_ago =>
           if negb (t1 - t0 <? leads - days_ago) then Err AssertionError
           else Ok (t0 - days_ago, zrange days_ago (t1 - t0 + days_ago))
       end.
(** icenet.py 93-97: the days of the predictions. *)
Definition icenet_days (t0 t1 closest : Z) (times : list Z) (leads : Z) : res (list Z) :=
  r <- icenet_leads t0 t1 closest times leads ;; Ok (map (fun l => fst r + l) (snd r)).

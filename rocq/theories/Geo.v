(** Model of meshiphi/utils.py (longitudes) and
    meshiphi/mesh_generation/boundary.py.  No proofs here. *)
From Verif Require Import Base.
Open Scope Q_scope.

(** utils.py 15-29 [longitude_domain] on a scalar.  (The list and ndarray
    branches, 20-23, map this over the elements.) *)
Definition longitude_domain (long : Q) : Q :=
  if qeqb long (-180) || qeqb long 180 then long
  else qmod (long + 180) 360 - 180.

(** utils.py 31-42 [longitude_distance]. *)
Definition longitude_distance (long_a long_b : Q) : Q :=
  let d := qabs (longitude_domain long_b - longitude_domain long_a) in
  let d := qmod d 360 in
  if qltb 180 d then 360 - d else d.

(** boundary.py 104-123: the attributes of a Boundary.  [time_range] is the list
    of parsed dates (empty or two of them) as day ordinals; the text form and
    [parse_datetime] (126-179) are modelled in Dates.v. *)
Record boundary := mkB {
  lat_min : Q; lat_max : Q; long_min : Q; long_max : Q; time_range : list Z }.

(** boundary.py 104-123 [__init__] and 182-202 [validate_bounds].  The ranges
    are Python lists, so a too short one is an error; extra elements are ignored
    by every later accessor (only [0] and [1] are read) and dropped here.  A single date
    is an IndexError (116-117). *)
Definition Boundary (lat_range long_range : list Q) (times : list Z) : res boundary :=
  match times with [_] => Err IndexError | _ =>
  match lat_range, long_range with
  | la :: lb :: _, oa :: ob :: _ =>
      if qltb lb la then Err ValueError
      else if qltb oa (-180) || qltb 180 ob then Err ValueError
      else match times with
           | [] => Ok (mkB la lb oa ob [])
           | [t0; t1] => if (t1 <? t0)%Z then Err ValueError
                         else Ok (mkB la lb oa ob [t0; t1])
           | _ => Err ValueError
           end
  | _, _ => Err ValueError
  end end.

(** boundary.py 228-237 *)
Definition get_height (b : boundary) : Q := lat_max b - lat_min b.
(** boundary.py 238-251 *)
Definition get_width (b : boundary) : Q :=
  if qltb (long_min b) (long_max b) then long_max b - long_min b
  else (180 - long_min b) + (long_max b + 180).
(** boundary.py 204-217 *)
Definition getcx (b : boundary) : Q :=
  let cx := long_min b + get_width b / 2 in
  if qltb 180 cx then cx - 360 else cx.
(** boundary.py 219-227 *)
Definition getcy (b : boundary) : Q := lat_min b + get_height b / 2.
(** boundary.py 257-265, 266-274 *)
Definition getdcx (b : boundary) : Q := get_width b / 2.
Definition getdcy (b : boundary) : Q := get_height b / 2.

(** boundary.py 407-427 [split]; order SW, NW, SE, NE. *)
Definition boundary_split (b : boundary) : res (list boundary) :=
  let lat_mid := lat_min b + get_height b / 2 in
  let long_mid := long_min b + get_width b / 2 in
  sw <- Boundary [lat_min b; lat_mid] [long_min b; long_mid] (time_range b) ;;
  nw <- Boundary [lat_mid; lat_max b] [long_min b; long_mid] (time_range b) ;;
  se <- Boundary [lat_min b; lat_mid] [long_mid; long_max b] (time_range b) ;;
  ne <- Boundary [lat_mid; lat_max b] [long_mid; long_max b] (time_range b) ;;
  Ok [sw; nw; se; ne].

(** boundary.py 440-478 [__eq__].  The time checks test the attributes
    [start_time]/[end_time], which no Boundary ever has (the constructor sets
    [time_range] only), so they never contribute. *)
Definition boundary_eqb (a b : boundary) : bool :=
  qeqb (lat_min a) (lat_min b) && qeqb (lat_max a) (lat_max b) &&
  qeqb (long_min a) (long_min b) && qeqb (long_max a) (long_max b).

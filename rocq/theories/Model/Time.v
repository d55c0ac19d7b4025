(** utils/timestamp.hpp, with the C library functions it calls (gmtime, strftime,
    strptime, timegm) as specified by POSIX and implemented by glibc. *)
From Verif Require Import Base.Prelude Base.Decimal.

(** struct tm, fields used by the format *)
Record tm := mkTm { tm_year : Z (* calendar year *); tm_mon : Z (* 1..12 *); tm_mday : Z; tm_hour : Z; tm_min : Z; tm_sec : Z }.

Definition leap_year (y : Z) : bool := (y mod 4 =? 0) && (negb (y mod 100 =? 0) || (y mod 400 =? 0)).
Definition month_lengths (y : Z) : list Z :=
  [31; (if leap_year y then 29 else 28); 31; 30; 31; 30; 31; 31; 30; 31; 30; 31].
(** days from 0001-01-01 to the first of January of year k+1 *)
Definition days_before_year (k : Z) : Z := 365 * k + k / 4 - k / 100 + k / 400.
(** days from 0001-01-01 to 1970-01-01 *)
Definition epoch_days : Z := 719162.
Fixpoint zsum (l : list Z) : Z := match l with [] => 0 | x :: r => x + zsum r end.
Definition days_before_month (y m : Z) : Z := zsum (firstn (Z.to_nat (m - 1)) (month_lengths y)).

(** gmtime(3): year by an estimate that is corrected by at most one, month from the
    table of month lengths (glibc time/offtime.c) *)
Definition year_index (n : Z) : Z :=
  let k := n * 400 / 146097 in
  if n <? days_before_year k then k - 1
  else if days_before_year (k + 1) <=? n then k + 1 else k.
Fixpoint split_month (lens : list Z) (m d : Z) : Z * Z :=
  match lens with
  | [] => (m, d)
  | l :: r => if d <? l then (m, d) else split_month r (m + 1) (d - l)
  end.
Definition gmtime (t : Z) : tm :=
  let days := t / 86400 in
  let rem := t mod 86400 in
  let n := days + epoch_days in
  let k := year_index n in
  let '(m, d) := split_month (month_lengths (k + 1)) 1 (n - days_before_year k) in
  mkTm (k + 1) m (d + 1) (rem / 3600) (rem / 60 mod 60) (rem mod 60).
(** gmtime(3) returns NULL if the year does not fit into an int *)
Definition gmtime_fits (t : Z) : bool := in_i32b (tm_year (gmtime t) - 1900).

(** timegm(3); days past the end of a month count on into the following months *)
Definition timegm (x : tm) : Z :=
  ((days_before_year (tm_year x - 1) + days_before_month (tm_year x) (tm_mon x) + (tm_mday x - 1) - epoch_days) * 24
     + tm_hour x) * 3600 + tm_min x * 60 + tm_sec x.

(** strftime(3) with timestamp_format() "%Y-%m-%dT%H:%M:%SZ" (timestamp.hpp 45-48) *)
Definition strftime_iso (x : tm) : string :=
  (print_Z (tm_year x) ++ "-" ++ print2 (tm_mon x) ++ "-" ++ print2 (tm_mday x) ++ "T"
   ++ print2 (tm_hour x) ++ ":" ++ print2 (tm_min x) ++ ":" ++ print2 (tm_sec x) ++ "Z")%string.
(** timestamp.hpp 39: timestamp_length *)
Definition timestamp_length : Z := 21.
(** timestamp.hpp 54-67: to_iso.  strftime returns 0 if text and final NUL need more than
    timestamp_length bytes; a NULL result of gmtime is passed on to strftime. *)
Definition to_iso (t : Z) : outcome string :=
  if t =? 0 then Ok ""%string
  else if gmtime_fits t then
    let s := strftime_iso (gmtime t) in
    if Z.of_nat (String.length s) <? timestamp_length then Ok s else Ok ""%string
  else UB.

(** glibc strptime: get_number(from, to, n): skip white space, read at least one and at most
    n digits, stop early when a further digit could not fit, check the range *)
Fixpoint skip_space (s : string) : string :=
  match s with String c r => if is_space c then skip_space r else s | EmptyString => EmptyString end.
Fixpoint read_digits (n : nat) (hi val : Z) (s : string) : Z * string :=
  match n with
  | O => (val, s)
  | S n' => match s with
            | String c r => if (val * 10 <=? hi) && is_digit c then read_digits n' hi (val * 10 + digit_val c) r else (val, s)
            | EmptyString => (val, s)
            end
  end.
Definition get_number (lo hi : Z) (n : nat) (s : string) : option (Z * string) :=
  let s := skip_space s in
  if starts_digit s then
    let '(v, r) := read_digits n hi 0 s in
    if (lo <=? v) && (v <=? hi) then Some (v, r) else None
  else None.
(** a literal character of the format *)
Definition get_char (c : ascii) (s : string) : option string :=
  match s with String a r => if Ascii.eqb a c then Some r else None | EmptyString => None end.
Definition strptime_iso (s : string) : option (tm * string) :=
  match get_number 0 9999 4 s with None => None | Some (y, s) =>
  match get_char "-" s with None => None | Some s =>
  match get_number 1 12 2 s with None => None | Some (mo, s) =>
  match get_char "-" s with None => None | Some s =>
  match get_number 1 31 2 s with None => None | Some (d, s) =>
  match get_char "T" s with None => None | Some s =>
  match get_number 0 23 2 s with None => None | Some (h, s) =>
  match get_char ":" s with None => None | Some s =>
  match get_number 0 59 2 s with None => None | Some (mi, s) =>
  match get_char ":" s with None => None | Some s =>
  match get_number 0 61 2 s with None => None | Some (se, s) =>
  match get_char "Z" s with None => None | Some s =>
  Some (mkTm y mo d h mi se, s)
  end end end end end end end end end end end end.
(** timestamp.hpp 73-79: parse_iso (non-Windows); text after the "Z" is not looked at *)
Definition parse_iso (s : string) : outcome Z :=
  match strptime_iso s with
  | None => Throw EInvalidArgument
  | Some (x, _) => Ok (timegm x)
  end.

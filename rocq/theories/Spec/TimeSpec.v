(** Specification of timestamps: the calendar by counting days one by one, decimal text
    by the value of its digits. *)
From Verif Require Import Base.Prelude.

(** value of one decimal digit, of a digit string, sign *)
Definition digit (c : ascii) : option Z :=
  let n := Z.of_nat (nat_of_ascii c) in if (48 <=? n) && (n <=? 57) then Some (n - 48) else None.
Fixpoint digits_from (acc : Z) (s : string) : option Z :=
  match s with
  | EmptyString => Some acc
  | String c r => match digit c with Some d => digits_from (10 * acc + d) r | None => None end
  end.
(** [number s n]: s is a non-empty digit string with value n *)
Definition number (s : string) (n : Z) : Prop := s <> ""%string /\ digits_from 0 s = Some n.
(** [number_w w s n]: exactly w digits *)
Definition number_w (w : nat) (s : string) (n : Z) : Prop := String.length s = w /\ number s n.

(** Gregorian calendar *)
Definition leap (y : Z) : Prop := (4 | y) /\ (~ (100 | y) \/ (400 | y)).
Record date := D { d_year : Z; d_month : Z; d_day : Z }.
(** number of days in a month: 30 days have September, April, June and November *)
Inductive month_days : Z -> Z -> Z -> Prop :=
| md_30 y m : In m [4; 6; 9; 11] -> month_days y m 30
| md_31 y m : In m [1; 3; 5; 7; 8; 10; 12] -> month_days y m 31
| md_28 y : ~ leap y -> month_days y 2 28
| md_29 y : leap y -> month_days y 2 29.
(** the day after *)
Inductive next_day : date -> date -> Prop :=
| nd_month y m d n : month_days y m n -> d < n -> next_day (D y m d) (D y m (d + 1))
| nd_year y m d n : month_days y m n -> d = n -> m < 12 -> next_day (D y m d) (D y (m + 1) 1)
| nd_new y d : d = 31 -> next_day (D y 12 d) (D (y + 1) 1 1).
(** [date_after n d]: d is n days after 1970-01-01 *)
Inductive date_after : Z -> date -> Prop :=
| da_0 : date_after 0 (D 1970 1 1)
| da_S n d d' : date_after n d -> next_day d d' -> date_after (n + 1) d'.

(** [iso_text t s]: s is the text yyyy-mm-ddThh:mm:ssZ of the UTC time t *)
Definition iso_text (t : Z) (s : string) : Prop :=
  exists n d ys ms ds h hs mi mis se ses,
    date_after n d /\ t = n * 86400 + h * 3600 + mi * 60 + se /\
    0 <= h < 24 /\ 0 <= mi < 60 /\ 0 <= se < 60 /\
    number_w 4 ys (d_year d) /\ number_w 2 ms (d_month d) /\ number_w 2 ds (d_day d) /\
    number_w 2 hs h /\ number_w 2 mis mi /\ number_w 2 ses se /\
    s = (ys ++ "-" ++ ms ++ "-" ++ ds ++ "T" ++ hs ++ ":" ++ mis ++ ":" ++ ses ++ "Z")%string.

(** last second of the year 9999 *)
Definition last_time : Z := 253402300799.

(** text of a signed number, possibly after white space and followed by something else *)
Definition blank (c : ascii) : Prop := In (nat_of_ascii c) [32; 9; 10; 11; 12; 13]%nat.
Fixpoint all_blank (s : string) : Prop :=
  match s with EmptyString => True | String c r => blank c /\ all_blank r end.
Definition no_digit_first (s : string) : Prop :=
  match s with EmptyString => True | String c _ => digit c = None end.
Inductive denotes : string -> Z -> Prop :=
| den_pos sp ds rest n : all_blank sp -> number ds n -> no_digit_first rest -> denotes (sp ++ ds ++ rest) n
| den_plus sp ds rest n : all_blank sp -> number ds n -> no_digit_first rest -> denotes (sp ++ "+" ++ ds ++ rest) n
| den_minus sp ds rest n : all_blank sp -> number ds n -> no_digit_first rest -> denotes (sp ++ "-" ++ ds ++ rest) (- n).

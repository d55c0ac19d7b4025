(** Doubles as decimal text: printf("%.7f") and atof, as specified by ISO C and implemented
    exactly (correctly rounded, nearest even) by glibc in the C locale. *)
From Flocq Require Import IEEE754.BinarySingleNaN IEEE754.Binary IEEE754.Bits.
From Verif Require Import Base.Prelude Base.Decimal Model.Float Model.Time.

(** n / d rounded to an integer, halfway cases to the even neighbour (0 <= n, 0 < d) *)
Definition round_ratio (n d : Z) : Z :=
  let q := n / d in
  let r := n mod d in
  match 2 * r ?= d with
  | Lt => q
  | Gt => q + 1
  | Eq => if Z.even q then q else q + 1
  end.
(** |x| * 10^k rounded to an integer, for the finite number x = m * 2^e *)
Definition scaled (k : Z) (m e : Z) : Z :=
  if e <? 0 then round_ratio (m * 10 ^ k) (2 ^ (- e)) else m * 2 ^ e * 10 ^ k.
(** exactly k digits *)
Fixpoint print_fixed (k : nat) (n : Z) : string :=
  match k with
  | O => EmptyString
  | S k' => (print_fixed k' (n / 10) ++ String (digit_char (n mod 10)) EmptyString)%string
  end.
Definition sign_text (s : bool) : string := if s then "-"%string else EmptyString.
(** n / 10^k with k digits after the point *)
Definition print_point (k : nat) (n : Z) : string :=
  (print_nonneg (n / 10 ^ Z.of_nat k) ++ "." ++ print_fixed k (n mod 10 ^ Z.of_nat k))%string.
(** printf("%.<k>f"), k > 0 *)
Definition printf_f (k : nat) (x : double) : string :=
  match x with
  | Binary.B754_zero _ _ s => (sign_text s ++ print_point k 0)%string
  | Binary.B754_infinity _ _ s => (sign_text s ++ "inf")%string
  | Binary.B754_nan _ _ s _ _ => (sign_text s ++ "nan")%string
  | Binary.B754_finite _ _ s m e _ => (sign_text s ++ print_point k (scaled (Z.of_nat k) (Zpos m) e))%string
  end.

Definition nan64 : {x : double | Binary.is_nan 53 1024 x = true} := default_nan_pl64.
(** the double nearest to m / n *)
Definition d_of_ratio (s : bool) (m n : positive) : double :=
  Binary.BSN2B 53 1024 nan64
    (BinarySingleNaN.SF2B _ (proj1 (BinarySingleNaN.Bdiv_correct_aux 53 1024 prec64 emax64 mode_NE s m 0 false n 0))).
(** the double nearest to m * 10^e *)
Definition d_of_decimal (s : bool) (m e : Z) : double :=
  match m with
  | Zpos p => if e <? 0 then d_of_ratio s p (Z.to_pos (10 ^ (- e))) else d_of_ratio s (Z.to_pos (m * 10 ^ e)) 1
  | _ => Binary.B754_zero 53 1024 s
  end.
(** an optional sign *)
Definition read_sign (s : string) : bool * string :=
  match s with
  | String c r => if Ascii.eqb c "-" then (true, r) else if Ascii.eqb c "+" then (false, r) else (false, s)
  | EmptyString => (false, s)
  end.
(** the exponent part, if there is a complete one *)
Definition read_exponent (s : string) : Z :=
  match s with
  | String c r =>
      if Ascii.eqb c "e" || Ascii.eqb c "E" then
        let '(neg, r) := read_sign r in
        if starts_digit r then let e := fst (scan_digits r 0) in if neg then - e else e else 0
      else 0
  | EmptyString => 0
  end.
(** the start of a text as a number: sign, digits and power of ten; None if there are no digits *)
Definition scan_decimal (s : string) : option (bool * Z * Z) :=
  let '(neg, s) := read_sign (skip_space s) in
  let '(m, r) := scan_digits s 0 in
  let '(m, r, k, ok) :=
    match r with
    | String c f =>
        if Ascii.eqb c "." then
          let '(m', r') := scan_digits f m in
          (m', r', Z.of_nat (String.length f) - Z.of_nat (String.length r'), starts_digit s || starts_digit f)
        else (m, r, 0, starts_digit s)
    | EmptyString => (m, r, 0, starts_digit s)
    end in
  if ok then Some (neg, m, read_exponent r - k) else None.
(** atof(3): white space, sign, digits with an optional point, optional exponent; the rest is
    ignored, 0 if there are no digits.  Simplification: hexadecimal numbers ("0x"), "inf" and
    "nan" are not recognised (the "0" before the "x" and nothing is read). *)
Definition atof (s : string) : double :=
  match scan_decimal s with
  | Some (neg, m, e) => d_of_decimal neg m e
  | None => d_of_Z 0
  end.

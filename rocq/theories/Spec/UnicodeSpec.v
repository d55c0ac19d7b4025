(** Specification of texts: the encoding forms UTF-8 and UTF-16 of the Unicode standard. *)
From Verif Require Import Base.Prelude.
Local Open Scope Z_scope.

(** Unicode scalar values *)
Definition scalar (c : Z) : Prop := 0 <= c < 55296 \/ 57344 <= c < 1114112.
Definition text (t : list Z) : Prop := Forall scalar t.
(** without the character U+0000 *)
Definition plain (t : list Z) : Prop := text t /\ ~ In 0 t.

(** the bits of a character in groups of six, from the right; the standard's table 3-6 *)
Definition six (c : Z) (i : Z) : Z := Z.land (Z.shiftr c (6 * i)) 63.
Definition utf8_bytes (c : Z) : list Z :=
  if c <=? 127 then [c]
  else if c <=? 2047 then [Z.lor 192 (six c 1); Z.lor 128 (six c 0)]
  else if c <=? 65535 then [Z.lor 224 (six c 2); Z.lor 128 (six c 1); Z.lor 128 (six c 0)]
  else [Z.lor 240 (six c 3); Z.lor 128 (six c 2); Z.lor 128 (six c 1); Z.lor 128 (six c 0)].
(** table 3-5 *)
Definition utf16_units (c : Z) : list Z :=
  if c <=? 65535 then [c]
  else [Z.lor 55296 (Z.shiftr (c - 65536) 10); Z.lor 56320 (Z.land (c - 65536) 1023)].

Definition string_of_bytes (l : list Z) : string :=
  fold_right (fun b s => String (ascii_of_N (Z.to_N b)) s) EmptyString l.
Definition utf8 (t : list Z) : string := string_of_bytes (flat_map utf8_bytes t).
Definition utf16 (t : list Z) : list Z := flat_map utf16_units t.
(** texts far longer than OSM allows (255 characters) *)
Definition short_text (t : list Z) : Prop := plain t /\ (List.length t < 512)%nat.
(** what a C program sees of a text *)
Definition before_nul (t t' : list Z) : Prop := (t' = t /\ ~ In 0 t) \/ (exists r, t = t' ++ 0 :: r /\ ~ In 0 t').
(** Javascript strings are lists of these *)
Definition unit16 (x : Z) : Prop := 0 <= x < 65536.
Definition js_string (u : list Z) : Prop := Forall unit16 u.
Definition no_nul (s : string) : Prop := forall i, String.get i s <> Some zero.
(** the value of the first tag with this key *)
Fixpoint first_value (k : list Z) (kvs : list (list Z * list Z)) : option (list Z) :=
  match kvs with
  | [] => None
  | (k', v) :: r => if list_eq_dec Z.eq_dec k' k then Some v else first_value k r
  end.

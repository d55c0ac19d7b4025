(** Text between C++ and Javascript.  Models /repo/include/osmium/javascript/unicode.hpp and the
    uses in javascript/wrapper/osm.hpp.
    A v8::String is the list of its UTF-16 units.  ICU's u_strFromUTF8 and u_strToUTF8 are modelled
    by what their documentation says: only well-formed text is converted, the error code depends on
    the length of the result and the capacity of the buffer. *)
From Verif Require Import Base.Prelude Model.Osm.
Local Open Scope Z_scope.

Definition byte_of (c : ascii) : Z := Z.of_N (N_of_ascii c).
Definition char_of (b : Z) : ascii := ascii_of_N (Z.to_N b).
(** The bytes of a char array up to the first zero. *)
Fixpoint c_string (s : string) : string :=
  match s with
  | EmptyString => EmptyString
  | String a r => if byte_of a =? 0 then EmptyString else String a (c_string r)
  end.

Definition is_tail (c : ascii) : bool := (128 <=? byte_of c) && (byte_of c <? 192).
Definition low6 (c : ascii) : Z := byte_of c - 128.
Definition opt_cons {A} (x : A) (r : option (list A)) : option (list A) :=
  match r with Some l => Some (x :: l) | None => None end.
(** ICU: the characters of well-formed UTF-8, None: U_INVALID_CHAR_FOUND *)
Fixpoint utf8_decode (s : string) : option (list Z) :=
  match s with
  | EmptyString => Some []
  | String a r =>
      let x := byte_of a in
      if x <? 128 then opt_cons x (utf8_decode r)
      else match r with
      | EmptyString => None
      | String b r1 =>
          if negb (is_tail b) then None
          else if x <? 194 then None
          else if x <? 224 then opt_cons ((x - 192) * 64 + low6 b) (utf8_decode r1)
          else match r1 with
          | EmptyString => None
          | String c r2 =>
              if negb (is_tail c) then None
              else if x <? 240 then
                let v := (x - 224) * 4096 + low6 b * 64 + low6 c in
                if (v <? 2048) || ((55296 <=? v) && (v <? 57344)) then None else opt_cons v (utf8_decode r2)
              else match r2 with
              | EmptyString => None
              | String d r3 =>
                  if negb (is_tail d) || (x >=? 245) then None
                  else let v := (x - 240) * 262144 + low6 b * 4096 + low6 c * 64 + low6 d in
                       if (v <? 65536) || (v >=? 1114112) then None else opt_cons v (utf8_decode r3)
              end
          end
      end
  end.
(** ICU: U16_APPEND *)
Definition u16_append (c : Z) : list Z :=
  if c <? 65536 then [c] else [c / 1024 + 55232; c mod 1024 + 56320].
(** ICU: the characters of well-formed UTF-16, None: U_INVALID_CHAR_FOUND *)
Fixpoint utf16_decode (u : list Z) : option (list Z) :=
  match u with
  | [] => Some []
  | a :: r =>
      if (55296 <=? a) && (a <? 57344) then
        match r with
        | b :: r1 =>
            if (a <? 56320) && ((56320 <=? b) && (b <? 57344))
            then opt_cons (a * 1024 + b - 56613888) (utf16_decode r1) else None
        | [] => None
        end
      else opt_cons a (utf16_decode r)
  end.
(** ICU: U8_APPEND *)
Definition u8_append (c : Z) : string :=
  let t k := char_of (128 + c / k mod 64) in
  if c <? 128 then String (char_of c) EmptyString
  else if c <? 2048 then String (char_of (192 + c / 64)) (String (t 1) EmptyString)
  else if c <? 65536 then String (char_of (224 + c / 4096)) (String (t 64) (String (t 1) EmptyString))
  else String (char_of (240 + c / 262144)) (String (t 4096) (String (t 64) (String (t 1) EmptyString))).

(** the UErrorCode; with U_BUFFER_OVERFLOW_ERROR the buffer holds the whole characters that fit *)
Inductive icu (A : Type) :=
| U_ZERO_ERROR (a : A)
| U_STRING_NOT_TERMINATED_WARNING (a : A)
| U_BUFFER_OVERFLOW_ERROR (a : A)
| U_INVALID_CHAR_FOUND.
Arguments U_ZERO_ERROR {A} a.
Arguments U_STRING_NOT_TERMINATED_WARNING {A} a.
Arguments U_BUFFER_OVERFLOW_ERROR {A} a.
Arguments U_INVALID_CHAR_FOUND {A}.
(** append whole characters while they fit *)
Fixpoint fill8 (cap : Z) (t : list Z) : string :=
  match t with
  | [] => EmptyString
  | c :: r => let e := u8_append c in if slen e <=? cap then (e ++ fill8 (cap - slen e) r)%string else EmptyString
  end.
Definition utf8_append_all (t : list Z) : string := fold_right (fun c s => (u8_append c ++ s)%string) EmptyString t.
(** ICU: u_strFromUTF8 for a C string *)
Definition u_strFromUTF8 (cap : Z) (s : string) : icu (list Z) :=
  match utf8_decode (c_string s) with
  | None => U_INVALID_CHAR_FOUND
  | Some t =>
      let u := flat_map u16_append t in
      let n := Z.of_nat (List.length u) in
      if n <? cap then U_ZERO_ERROR u
      else if n =? cap then U_STRING_NOT_TERMINATED_WARNING u
      else U_BUFFER_OVERFLOW_ERROR (firstn (Z.to_nat cap) u)
  end.
(** ICU: u_strToUTF8 *)
Definition u_strToUTF8 (cap : Z) (u : list Z) : icu string :=
  match utf16_decode u with
  | None => U_INVALID_CHAR_FOUND
  | Some t =>
      let s := utf8_append_all t in
      if slen s <? cap then U_ZERO_ERROR s
      else if slen s =? cap then U_STRING_NOT_TERMINATED_WARNING s
      else U_BUFFER_OVERFLOW_ERROR (fill8 cap t)
  end.

(** unicode.hpp 55-73: the exceptions *)
Definition EUTF8_to_UTF16 : exn := EOther 60.
Definition EUTF16_to_UTF8 : exn := EOther 61.
(** unicode.hpp 81-91: utf8_to_v8_String *)
Definition utf8_to_v8_String (characters : Z) (s : string) : outcome (list Z) :=
  match u_strFromUTF8 (characters * 2) s with
  | U_ZERO_ERROR u => Ok u
  | _ => Throw EUTF8_to_UTF16
  end.
(** unicode.hpp 101-114: v8_String_to_utf8; at most 2 * characters units are written to src.  The result is
    a C string. *)
Definition v8_String_to_utf8 (characters : Z) (u : list Z) : outcome string :=
  match u_strToUTF8 (characters * 4) (firstn (Z.to_nat (characters * 2)) u) with
  | U_ZERO_ERROR s => Ok (c_string s)
  | _ => Throw EUTF16_to_UTF8
  end.
(** unicode.hpp 122-146: v8_String_to_ostream: what is printed.  The length is an int. *)
Definition v8_String_to_ostream (u : list Z) : outcome string :=
  let length := 4 * (Z.of_nat (List.length u) + 1) in
  if length >? int32_max then UB
  else match u_strToUTF8 length u with
  | U_ZERO_ERROR s => Ok (c_string s)
  | _ => Throw EUTF16_to_UTF8
  end.

(* ---- wrapper/osm.hpp: texts of objects ---- *)
(** tag.hpp 41-42, relation_member.hpp 47, object.hpp 52: max_utf16_length_key, _value, _role, _username *)
Definition max_utf16_length : Z := 512.
(** wrapper/osm.hpp 45-52: get_value_by_key; None: undefined *)
Definition js_tag (ts : tag_list) (property : list Z) : outcome (option (list Z)) :=
  let! key := v8_String_to_utf8 max_utf16_length property in
  match get_value_by_key ts key with
  | Some value => let! v := utf8_to_v8_String max_utf16_length value in Ok (Some v)
  | None => Ok None
  end.
(** wrapper/osm.hpp 54-65: enumerate_tag_keys *)
Fixpoint js_keys (ts : tag_list) : outcome (list (list Z)) :=
  match ts with
  | [] => Ok []
  | t :: r => let! k := utf8_to_v8_String max_utf16_length (tkey t) in let! ks := js_keys r in Ok (k :: ks)
  end.
(** wrapper/osm.hpp 194-196: user *)
Definition js_user (a : attrs) : outcome (list Z) := utf8_to_v8_String max_utf16_length (o_user a).
(** wrapper/osm.hpp 128-130: role *)
Definition js_role (m : member) : outcome (list Z) := utf8_to_v8_String max_utf16_length (m_role m).

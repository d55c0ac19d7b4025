(** Common imports, integer widths and outcomes.  No osmium content. *)
From Coq Require Export List ZArith Lia Bool String Ascii Permutation Sorted.
From Coq Require Export ZifyBool ZifyNat ZifyN.
Export ListNotations.
Ltac Zify.zify_post_hook ::= Z.div_mod_to_equations.
Open Scope Z_scope.
Arguments Z.pow : simpl never.
Arguments Z.mul : simpl never.
Arguments Z.modulo : simpl never.
Arguments Z.div : simpl never.

(** Fixed width integers of C++ (LP64): the value range and the wrap. *)
Definition int32_max : Z := 2147483647.
Definition int32_min : Z := -2147483648.
Definition int64_max : Z := 9223372036854775807.
Definition int64_min : Z := -9223372036854775808.
Definition in_i32 (x : Z) : Prop := int32_min <= x <= int32_max.
Definition in_i64 (x : Z) : Prop := int64_min <= x <= int64_max.
Definition in_u32 (x : Z) : Prop := 0 <= x < 4294967296.
Definition in_u64 (x : Z) : Prop := 0 <= x < 18446744073709551616.
Definition in_i32b (x : Z) : bool := (int32_min <=? x) && (x <=? int32_max).
Definition in_i64b (x : Z) : bool := (int64_min <=? x) && (x <=? int64_max).
Definition in_u32b (x : Z) : bool := (0 <=? x) && (x <? 4294967296).

(** conversion to an unsigned / signed type of a given width (modulo 2^k) *)
Definition to_u16 (x : Z) : Z := x mod 65536.
Definition to_u32 (x : Z) : Z := x mod 4294967296.
Definition to_u64 (x : Z) : Z := x mod 18446744073709551616.
Definition to_i32 (x : Z) : Z := (x + 2147483648) mod 4294967296 - 2147483648.
Definition to_i64 (x : Z) : Z := (x + 9223372036854775808) mod 18446744073709551616 - 9223372036854775808.

(** Outcome of a C++ operation: a value, an exception, undefined behaviour, or a
    failed assert().  UB and failed asserts are never merged with values. *)
Inductive exn :=
| ELength | EInvalidArgument | ERange | EOutOfRange | EBadAlloc | ERuntime | EStopReading
| ESystem | EArgument | EOther (n : Z).
Inductive outcome (A : Type) :=
| Ok (a : A)
| Throw (e : exn)
| UB
| AssertFail.
Arguments Ok {A} a.
Arguments Throw {A} e.
Arguments UB {A}.
Arguments AssertFail {A}.

Definition obind {A B} (x : outcome A) (f : A -> outcome B) : outcome B :=
  match x with Ok a => f a | Throw e => Throw e | UB => UB | AssertFail => AssertFail end.
Notation "'let!' x ':=' e1 'in' e2" := (obind e1 (fun x => e2))
  (at level 200, x pattern, e1 at level 100, e2 at level 200, right associativity).

Lemma to_i32_id x : in_i32 x -> to_i32 x = x.
Proof. unfold in_i32, to_i32, int32_min, int32_max; intros; lia. Qed.
Lemma to_i64_id x : in_i64 x -> to_i64 x = x.
Proof. unfold in_i64, to_i64, int64_min, int64_max; intros; lia. Qed.
Lemma to_u32_id x : in_u32 x -> to_u32 x = x.
Proof. unfold in_u32, to_u32; intros; lia. Qed.
Lemma to_u64_id x : in_u64 x -> to_u64 x = x.
Proof. unfold in_u64, to_u64; intros; lia. Qed.
Lemma to_i32_range x : in_i32 (to_i32 x).
Proof. unfold in_i32, to_i32, int32_min, int32_max; lia. Qed.
Lemma to_i64_range x : in_i64 (to_i64 x).
Proof. unfold in_i64, to_i64, int64_min, int64_max; lia. Qed.
Lemma in_i32b_spec x : in_i32b x = true <-> in_i32 x.
Proof. unfold in_i32b, in_i32; lia. Qed.
Lemma in_i64b_spec x : in_i64b x = true <-> in_i64 x.
Proof. unfold in_i64b, in_i64; lia. Qed.

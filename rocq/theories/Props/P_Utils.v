(** C10, C11: delta coding and the string table. *)
From Verif Require Import Base.Prelude Base.SMap Model.Utils Spec.UtilsSpec Proofs.UtilsProofs.

(* ---- C10 ---- *)
Theorem C10_delta_lossless : forall t ops ds,
  Forall (in_ity t) (values ops) -> run_delta t delta_new ops = Ok ds -> decode t 0 ops ds = values ops.
Proof. exact delta_lossless. Qed.
Print Assumptions C10_delta_lossless.
Theorem C10_unsigned_always_defined : forall ops m, exists ds, run_delta U32 m ops = Ok ds.
Proof. exact delta_defined_u32. Qed.
Print Assumptions C10_unsigned_always_defined.
Theorem C10_signed_defined_iff : forall ops,
  (no_overflow 0 ops -> exists ds, run_delta I64 delta_new ops = Ok ds) /\
  (~ no_overflow 0 ops -> run_delta I64 delta_new ops = UB).
Proof. exact delta_defined_i64. Qed.
Print Assumptions C10_signed_defined_iff.
Theorem C10_signed_defined_for_62_bit_values : forall ops,
  Forall (fun v => - 4611686018427387904 <= v < 4611686018427387904) (values ops) -> no_overflow 0 ops.
Proof. exact no_overflow_62. Qed.
Print Assumptions C10_signed_defined_for_62_bit_values.
(** Finding: differences that wrap are signed overflow, not wrap around. *)
Theorem C10_wrapping_differences_refuted : exists ops,
  Forall (in_ity I64) (values ops) /\ forall ds, run_delta I64 delta_new ops <> Ok ds.
Proof. exact delta_overflow_refuted. Qed.
Print Assumptions C10_wrapping_differences_refuted.
Example C10_ex : run_delta I64 delta_new [DUpdate 10; DUpdate 7; DClear; DUpdate (-3)] = Ok [10; -3; -3]
  /\ decode I64 0 [DUpdate 10; DUpdate 7; DClear; DUpdate (-3)] [10; -3; -3] = [10; 7; -3]
  /\ run_delta U32 delta_new [DUpdate 10; DUpdate 7] = Ok [10; 4294967293].
Proof. vm_compute; auto. Qed.

(* ---- C11 ---- *)
Theorem C11_string_table : forall order l,
  by_count_desc order -> Z.of_nat (distinct_strings l) <= 65535 ->
  let (t, ids) := record_all l st_new in
  exists t' tbl, store_stringtable order t = Ok (t', tbl) /\
    nth_error tbl 0 = Some ""%string /\
    Permutation (tl tbl) (nodup string_dec l) /\
    List.length ids = List.length l /\
    (forall n s k, nth_error l n = Some s -> nth_error ids n = Some k ->
       exists j, map_string_id k t' = Ok j /\ 1 <= j /\ nth_error tbl (Z.to_nat j) = Some s) /\
    ((forall s, Z.of_nat (occurrences l s) <= 65536) ->
       StronglySorted (fun a b => occurrences l a >= occurrences l b)%nat (tl tbl)).
Proof. exact stringtable_main. Qed.
Print Assumptions C11_string_table.
(** Finding: with more than 65535 different strings in a block ids resolve to wrong strings. *)
Theorem C11_too_many_strings_refuted : exists l, forall order t' tbl,
  store_stringtable order (fst (record_all l st_new)) = Ok (t', tbl) ->
  ~ (forall n s k, nth_error l n = Some s -> nth_error (snd (record_all l st_new)) n = Some k ->
       exists j, map_string_id k t' = Ok j /\ nth_error tbl (Z.to_nat j) = Some s).
Proof. exact too_many_strings_refuted. Qed.
Print Assumptions C11_too_many_strings_refuted.
(** Finding: the use counter wraps after 65536 uses, so the order by use count is lost. *)
Theorem C11_use_count_order_refuted : exists l, Z.of_nat (distinct_strings l) <= 65535 /\ forall order t' tbl,
  by_count_desc order ->
  store_stringtable order (fst (record_all l st_new)) = Ok (t', tbl) ->
  ~ StronglySorted (fun a b => occurrences l a >= occurrences l b)%nat (tl tbl).
Proof. exact count_order_refuted. Qed.
Print Assumptions C11_use_count_order_refuted.
(** Clearing gives a table that behaves like a new one. *)
Theorem C11_clear_is_new : forall t, st_clear t = st_new.
Proof. exact st_clear_new. Qed.
Print Assumptions C11_clear_is_new.
(** The hypotheses can be met: an insertion sort by count, and a small list of strings. *)
Theorem C11_order_exists : by_count_desc insertion_by_count.
Proof. exact insertion_by_count_ok. Qed.
Print Assumptions C11_order_exists.
Example C11_ex : let (t, ids) := record_all ["x"; "y"; "y"; "x"; "y"; "z"]%string st_new in
  ids = [1; 2; 2; 1; 2; 3] /\
  exists t', store_stringtable insertion_by_count t = Ok (t', [""; "y"; "x"; "z"]%string) /\
    map_string_id 1 t' = Ok 2 /\ map_string_id 2 t' = Ok 1 /\ map_string_id 3 t' = Ok 3.
Proof. vm_compute. split; [reflexivity|]. eexists; split; [reflexivity|]. auto. Qed.

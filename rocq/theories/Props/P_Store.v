(** C16-C18: id -> value stores. *)
From Verif Require Import Base.Prelude Model.Osm Model.Store Spec.StoreSpec Proofs.StoreProofs.

(* ---- C16 ---- *)
Theorem C16_fixed_array : forall (V : Type) sz max_id (ops : list (sop V)), 0 < sz ->
  0 <= sz * max_id < 18446744073709551616 ->
  Forall not_clear ops -> (forall id, In id (set_ids ops) -> 0 <= id < max_id) ->
  exists s, run (fa_op sz) ops (fa_new sz max_id true) = Ok s /\
    forall id, fa_get sz id s = match last_set ops id with Some v => Ok v | None => UB end.
Proof. exact (fun V sz max_id ops H => fa_correct sz H max_id ops). Qed.
Print Assumptions C16_fixed_array.
Theorem C16_mmap_anon : forall (V : Type) (zv : V) sz (ops : list (sop V)), 0 < sz ->
  addressable sz 0 -> Forall not_clear ops -> (forall id, In id (set_ids ops) -> addressable sz id) ->
  (exists s, run (ma_op zv sz) ops (ma_new zv sz true) = Ok s /\
     (forall id, In id (set_ids ops) -> id < ma_size s) /\
     forall id, ma_get sz id s =
       if (0 <=? id) && (id <? ma_size s) then Ok (or_else (last_set ops id) zv) else UB) \/
  (run (ma_op zv sz) ops (ma_new zv sz true) = Throw EBadAlloc /\ ~ Forall granted ops).
Proof. exact (fun V zv sz ops H => ma_main zv sz H ops). Qed.
Print Assumptions C16_mmap_anon.
Theorem C16_mmap_file : forall (V : Type) sz (f : file) (ops : list (sop V)), 0 < sz ->
  addressable sz 0 -> Forall not_clear ops -> (forall id, In id (set_ids ops) -> addressable sz id) ->
  (exists s, run (mf_op sz) ops (mf_open sz f true) = Ok s /\
     (forall id, mf_get sz id s = if (0 <=? id) && (id <? mf_size s) then Ok (or_else (last_set ops id) (f_cells f id)) else UB) /\
     (forall id, f_cells (mf_file s) id = or_else (last_set ops id) (f_cells f id))) \/
  (run (mf_op sz) ops (mf_open sz f true) = Throw EBadAlloc /\ ~ Forall granted ops).
Proof. exact (fun V sz f ops H => mf_main sz H f ops). Qed.
Print Assumptions C16_mmap_file.
Theorem C16_sparse_table : forall (V : Type) (dflt : V) grow (ops : list (sop V)), 0 < grow ->
  (forall id, In id (set_ids ops) -> 0 <= id /\ id + grow < 18446744073709551616) ->
  exists s, run sp_op ops (Ok (sp_new grow)) = Ok s /\
    forall id, 0 <= id -> sp_get dflt id s = Ok (or_else (last_set ops id) dflt).
Proof. exact @sp_main. Qed.
Print Assumptions C16_sparse_table.
(** Findings: where "the default value if never set" and "also after clear" fail. *)
Theorem C16_fixed_array_unset_refuted : exists ops : list (sop Z), exists s id, Forall not_clear ops /\ 0 <= id < 10 /\
  run (fa_op 8) ops (fa_new 8 10 true) = Ok s /\ last_set ops id = None /\ fa_get 8 id s = UB.
Proof. exact fa_unset_refuted. Qed.
Print Assumptions C16_fixed_array_unset_refuted.
Theorem C16_mmap_default_refuted : exists (ops : list (sop position)) s id,
  run (ma_op (mkPos 0 0) 8) ops (ma_new (mkPos 0 0) 8 true) = Ok s /\
  0 <= id < ma_size s /\ last_set ops id = None /\ ma_get 8 id s = Ok (mkPos 0 0) /\
  mkPos 0 0 <> undef_pos /\ pos_defined (mkPos 0 0) = true.
Proof. exact ma_default_refuted. Qed.
Print Assumptions C16_mmap_default_refuted.
Theorem C16_set_after_clear_refuted : exists i j v,
  run (fa_op 8) [SClear; SSet i v true] (fa_new 8 10 true) = UB /\
  run (ma_op 0 8) [SClear; SSet i v true] (ma_new 0 8 true) = UB /\
  run (mf_op 8) [SClear; SSet j v true] (mf_open 8 (file_empty 0) true) = UB.
Proof. exists 3, 0, 7. exact clear_then_set_refuted. Qed.
Print Assumptions C16_set_after_clear_refuted.
Theorem C16_huge_id_refuted : exists i v, 0 <= i < 18446744073709551616 /\
  run (ma_op 0 8) [SSet i v true] (ma_new 0 8 true) = UB /\
  run sp_op [SSet i v true] (Ok (sp_new 10000)) = UB.
Proof. exists 18446744073709551615, 7. split; [lia|exact huge_id_refuted]. Qed.
Print Assumptions C16_huge_id_refuted.
Example C16_ex : addressable 8 20000000 /\
  exists s, run (ma_op 0 8) [SSet 3 7 true; SSet 20000000 9 true; SSet 3 8 true] (ma_new 0 8 true) = Ok s /\
    ma_get 8 3 s = Ok 8 /\ ma_get 8 20000000 s = Ok 9 /\ ma_get 8 4 s = Ok 0 /\ ma_get 8 90000000 s = UB.
Proof. split; [unfold addressable, size_increment; lia|]. eexists; split; [reflexivity|]. repeat split. Qed.

(* ---- C17 ---- *)
Theorem C17_found_after_reopen_and_growth : forall (V : Type) sz (f : file) (pre sets : list (sop V)) s id top, 0 < sz ->
  addressable sz 0 -> Forall not_clear pre -> Forall is_set sets ->
  (forall i, In i (set_ids (pre ++ SReopen true :: sets)) -> addressable sz i) ->
  run (mf_op sz) (pre ++ SReopen true :: sets) (mf_open sz f true) = Ok s ->
  In top (set_ids sets) -> 0 <= id <= top ->
  mf_get sz id s = Ok (or_else (last_set (pre ++ sets) id) (f_cells f id)).
Proof. exact (fun V sz f pre sets s id top H => mf_persist sz H f pre sets s id top). Qed.
Print Assumptions C17_found_after_reopen_and_growth.
(** Values always are in the file; see C16_mmap_file, last conjunct, for any mix of set and reopen. *)
(** Finding: directly after reopening, reading a stored id is outside of the mapping. *)
Theorem C17_read_after_reopen_refuted : exists (ops : list (sop Z)) s id,
  run (mf_op 8) ops (mf_open 8 (file_empty 0) true) = Ok s /\ last_set ops id = Some 7 /\ mf_get 8 id s = UB.
Proof. exact mf_reopen_refuted. Qed.
Print Assumptions C17_read_after_reopen_refuted.
Example C17_ex : exists s,
  run (mf_op 8) ([SSet 3 7 true; SSet 20000000 9 true; SReopen true; SSet 0 1 true] ++ SReopen true :: [SSet 20000000 4 true])
    (mf_open 8 (file_empty 0) true) = Ok s /\ mf_get 8 3 s = Ok 7 /\ mf_get 8 20000000 s = Ok 4.
Proof. eexists; split; [reflexivity|]. repeat split. Qed.

(* ---- C18 ---- *)
Theorem C18_stl_map : forall (V : Type) (ops : list (sop V)) id, Forall not_clear ops ->
  sm_get id (fold_left (fun s o => sm_op o s) ops []) =
  match last_set ops id with Some v => Ok v | None => Throw EOutOfRange end.
Proof. exact @sm_main. Qed.
Print Assumptions C18_stl_map.
Theorem C18_vector : forall (V : Type) (dflt : V) (ops : list (sop V)) id,
  increasing_since_clear ops (-1) -> 0 <= id <= int64_max ->
  vec_get dflt id (fold_left (fun s o => vec_op o s) ops []) = Some (or_else (last_set ops id) dflt).
Proof. exact @vec_main. Qed.
Print Assumptions C18_vector.
Theorem C18_agree : forall (V : Type) (dflt : V) (ops : list (sop V)) id,
  Forall not_clear ops -> increasing_since_clear ops (-1) -> 0 <= id <= int64_max ->
  (exists v, sm_get id (fold_left (fun s o => sm_op o s) ops []) = Ok v /\
             vec_get dflt id (fold_left (fun s o => vec_op o s) ops []) = Some v) \/
  (sm_get id (fold_left (fun s o => sm_op o s) ops []) = Throw EOutOfRange /\
             vec_get dflt id (fold_left (fun s o => vec_op o s) ops []) = Some dflt).
Proof. exact @no_clear_increasing. Qed.
Print Assumptions C18_agree.
(** Findings: StlMap::clear does nothing; setting an id again is ignored by Vector. *)
Theorem C18_stl_map_clear_refuted : exists (ops : list (sop Z)) id,
  last_set ops id = None /\ sm_get id (fold_left (fun s o => sm_op o s) ops []) = Ok 7.
Proof. exact sm_clear_refuted. Qed.
Print Assumptions C18_stl_map_clear_refuted.
Theorem C18_repeated_set_refuted : exists (ops : list (sop Z)) id, Forall is_set ops /\ last_set ops id = Some 8 /\
  vec_get 0 id (fold_left (fun s o => vec_op o s) ops []) = Some 7 /\
  sm_get id (fold_left (fun s o => sm_op o s) ops []) = Ok 8.
Proof. exact vec_repeat_refuted. Qed.
Print Assumptions C18_repeated_set_refuted.
Definition C18_ops : list (sop Z) := [SSet 1 10 true; SSet 5 50 true; SSet 9 90 true].
Example C18_ex : increasing_since_clear C18_ops (-1) /\
  vec_get 0 5 (fold_left (fun s o => vec_op o s) C18_ops []) = Some 50 /\
  vec_get 0 6 (fold_left (fun s o => vec_op o s) C18_ops []) = Some 0.
Proof. split; [cbn; unfold int64_max; lia|]. split; reflexivity. Qed.

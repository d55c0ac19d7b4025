(** Specification of id -> value stores: the history of operations decides every lookup. *)
From Verif Require Import Base.Prelude Model.Store.

Section Spec.
  Context {V : Type}.
  (** operations; [ok] says whether the system grants the memory or file space asked for *)
  Inductive sop := SSet (id : Z) (v : V) (ok : bool) | SClear | SReopen (ok : bool).
  (** the value last set for an id since the last clear *)
  Definition last_set1 (id : Z) (cur : option V) (o : sop) : option V :=
    match o with SSet i v _ => if i =? id then Some v else cur | SClear => None | SReopen _ => cur end.
  Definition last_set (ops : list sop) (id : Z) : option V := fold_left (last_set1 id) ops None.
  Definition or_else (o : option V) (d : V) : V := match o with Some v => v | None => d end.
  Definition run {S} (step : sop -> S -> outcome S) (ops : list sop) (s : outcome S) : outcome S :=
    fold_left (fun r o => let! s := r in step o s) ops s.
  Definition set_ids (ops : list sop) : list Z :=
    flat_map (fun o => match o with SSet i _ _ => [i] | _ => [] end) ops.
  Definition is_set (o : sop) : Prop := match o with SSet _ _ _ => True | _ => False end.
  Definition not_clear (o : sop) : Prop := match o with SClear => False | _ => True end.
  Definition granted (o : sop) : Prop := match o with SSet _ _ ok => ok = true | SReopen ok => ok = true | SClear => True end.

  Variables (dflt zv : V) (sz : Z).
  Definition fa_op (o : sop) (s : fixed_array) : outcome fixed_array :=
    match o with SSet i v _ => fa_set sz i v s | SClear => Ok (fa_clear s) | SReopen _ => Ok s end.
  Definition ma_op (o : sop) (s : mmap_anon) : outcome mmap_anon :=
    match o with SSet i v ok => ma_set zv sz i v ok s | SClear => Ok (ma_clear s) | SReopen _ => Ok s end.
  (** reopening is destruction followed by construction on the same file *)
  Definition mf_op (o : sop) (s : mmap_file) : outcome mmap_file :=
    match o with
    | SSet i v ok => mf_set sz i v ok s
    | SClear => Ok (mf_clear s)
    | SReopen ok => mf_open sz (mf_file (mf_clear s)) ok
    end.
  Definition sp_op (o : sop) (s : sparse_table) : outcome sparse_table :=
    match o with SSet i v _ => sp_set i v s | SClear => Ok (sp_clear s) | SReopen _ => Ok s end.
  Definition sm_op (o : sop) (s : stl_map) : stl_map :=
    match o with SSet i v _ => sm_set (V:=V) i v s | SClear => sm_clear s | SReopen _ => s end.
  Definition vec_op (o : sop) (s : vector) : vector :=
    match o with SSet i v _ => vec_store (V:=V) i v s | SClear => vec_clear s | SReopen _ => s end.
  (** ids the array stores can address: the size in bytes fits 64 bits *)
  Definition addressable (id : Z) : Prop := 0 <= id /\ sz * (id + size_increment) < 18446744073709551616.
(** ids are set in increasing order (since the last clear) and fit a signed 64 bit integer *)
Fixpoint increasing_since_clear (ops : list sop) (low : Z) : Prop :=
  match ops with
  | [] => True
  | SSet i _ _ :: r => low < i <= int64_max /\ increasing_since_clear r i
  | SClear :: r => increasing_since_clear r (-1)
  | SReopen _ :: r => increasing_since_clear r low
  end.
End Spec.
Arguments sop V : clear implicits.

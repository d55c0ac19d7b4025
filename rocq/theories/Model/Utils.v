(** utils/delta.hpp and utils/stringtable.hpp *)
From Verif Require Import Base.Prelude Base.SMap.

(* ---- utils/delta.hpp ---- *)
(** The integer types Delta is instantiated with (output/pbf.hpp 230-236, 682, 706):
    Delta<int64_t> and Delta<uint32_t>. *)
Inductive ity := I64 | U32.
Definition in_ity (t : ity) (x : Z) : Prop := match t with I64 => in_i64 x | U32 => in_u32 x end.
(** the C++ subtraction in type T: signed overflow is undefined, unsigned wraps *)
Definition isub (t : ity) (a b : Z) : outcome Z :=
  match t with
  | I64 => if in_i64b (a - b) then Ok (a - b) else UB
  | U32 => Ok (to_u32 (a - b))
  end.
(** utils/delta.hpp 39-41: constructor; the state is m_value *)
Definition delta_new : Z := 0.
(** utils/delta.hpp 43-45: clear *)
Definition delta_clear (m_value : Z) : Z := 0.
(** utils/delta.hpp 47-50: update: swap, then m_value - new_value (i.e. new - old) *)
Definition delta_update (t : ity) (m_value new_value : Z) : outcome (Z * Z) :=
  let! d := isub t new_value m_value in Ok (new_value, d).

(* ---- utils/stringtable.hpp ---- *)
(** utils/stringtable.hpp 75-81: string_info *)
Record string_info := mkInfo { si_count : Z; si_interim : Z }.
(** utils/stringtable.hpp 87-97: members.  std::map is a list of pairs sorted by key
    (std::string comparison is bytewise, as String.compare). *)
Record stringtable := mkST {
  st_strings : list (string * string_info);
  st_id2id : list Z;
  st_size : Z }.
(** utils/stringtable.hpp 101-105 *)
Definition st_new : stringtable := mkST [] [] 0.

(** utils/stringtable.hpp 115-123: record_string; the id is truncated to uint16_t, the
    counter is a uint16_t (m_size is an int; its own overflow at 2^31 is not modelled) *)
Definition record_string (s : string) (t : stringtable) : stringtable * Z :=
  let info := match map_find s (st_strings t) with Some i => i | None => mkInfo 0 0 end in
  if si_interim info =? 0 then
    let size := st_size t + 1 in
    let info' := mkInfo (si_count info) (to_u16 size) in
    (mkST (map_put s info' (st_strings t)) (st_id2id t) size, si_interim info')
  else
    let info' := mkInfo (to_u16 (si_count info + 1)) (si_interim info) in
    (mkST (map_put s info' (st_strings t)) (st_id2id t) (st_size t), si_interim info').

(** vector::resize and m_id2id_map[i] = v (out of range is undefined) *)
Definition vec_resize (n : nat) (l : list Z) : list Z := firstn n l ++ repeat 0 (n - List.length l).
Fixpoint vec_set (i : nat) (v : Z) (l : list Z) : option (list Z) :=
  match i, l with
  | _, [] => None
  | O, _ :: r => Some (v :: r)
  | S i, x :: r => match vec_set i v r with Some r' => Some (x :: r') | None => None end
  end.
(** utils/stringtable.hpp 150-158: the loop over the multimap [sorted] *)
Fixpoint st_fill (sorted : list (string * string_info)) (n : Z) (ids : list Z) : outcome (list Z) :=
  match sorted with
  | [] => Ok ids
  | (_, i) :: r =>
      match vec_set (Z.to_nat (si_interim i)) (to_u16 (n + 1)) ids with
      | Some ids' => st_fill r (n + 1) ids'
      | None => UB
      end
  end.
Section Store.
  (** The order the multimap iterates in: some arrangement of the entries by descending count
      (operator< 107-109 compares counts, inverted); the order of entries with equal counts
      is left open, it depends on the library. *)
  Variable multimap_order : list (string * string_info) -> list (string * string_info).
  (** utils/stringtable.hpp 136-159: store_stringtable; returns the protobuf string table *)
  Definition store_stringtable (t : stringtable) : outcome (stringtable * list string) :=
    let sorted := multimap_order (st_strings t) in
    let! ids := st_fill sorted 0 (vec_resize (Z.to_nat (st_size t + 1)) (st_id2id t)) in
    Ok (mkST (st_strings t) ids (st_size t), ""%string :: map fst sorted).
End Store.
(** utils/stringtable.hpp 164-166 *)
Definition map_string_id (interim : Z) (t : stringtable) : outcome Z :=
  match nth_error (st_id2id t) (Z.to_nat interim) with Some v => Ok v | None => UB end.
(** utils/stringtable.hpp 171-175 *)
Definition st_clear (t : stringtable) : stringtable := mkST [] [] 0.

(** storage/byid/*.hpp: id -> value stores.  [V] is TValue, [dflt] is TValue(), [zv] the value
    whose bytes are all zero, [sz] is sizeof(TValue).  Contents are functions of the id
    together with the number of bytes that are mapped or allocated; an access outside of it
    (page rounding ignored) is undefined behaviour.  uint64_t ids are Z in [0, 2^64). *)
From Verif Require Import Base.Prelude.

Section Stores.
  Context {V : Type}.
  Variables (dflt zv : V) (sz : Z).

  (** m_items[id] lies inside [bytes] bytes *)
  Definition inside_bytes (bytes id : Z) : bool := (0 <=? id) && ((id + 1) * sz <=? bytes).
  Definition fupd {W} (f : Z -> W) (i : Z) (w : W) : Z -> W := fun j => if j =? i then w else f j.

  (* ---- storage/byid/fixed_array.hpp ---- *)
  (** 101-103: m_size, m_items (None: NULL, else the allocated bytes); malloc'ed cells are
      indeterminate (None) until set *)
  Record fixed_array := mkFA { fa_size : Z; fa_mem : option Z; fa_cells : Z -> option V }.
  (** 65-72: constructor; [ok] is the answer of malloc *)
  Definition fa_new (max_id : Z) (ok : bool) : outcome fixed_array :=
    if ok then Ok (mkFA max_id (Some (to_u64 (sz * max_id))) (fun _ => None)) else Throw EBadAlloc.
  (** 78-80: set *)
  Definition fa_set (id : Z) (v : V) (s : fixed_array) : outcome fixed_array :=
    match fa_mem s with
    | Some b => if inside_bytes b id then Ok (mkFA (fa_size s) (fa_mem s) (fupd (fa_cells s) id (Some v))) else UB
    | None => UB
    end.
  (** 82-84: operator[] *)
  Definition fa_get (id : Z) (s : fixed_array) : outcome V :=
    match fa_mem s with
    | Some b => if inside_bytes b id then match fa_cells s id with Some v => Ok v | None => UB end else UB
    | None => UB
    end.
  (** 94-97: clear *)
  Definition fa_clear (s : fixed_array) : fixed_array := mkFA (fa_size s) None (fa_cells s).

  (* ---- storage/byid/mmap_anon.hpp ---- *)
  (** 60: size_increment *)
  Definition size_increment : Z := 10485760.
  (** 110-114: m_size, m_items (None: nothing mapped there) *)
  Record mmap_anon := mkMA { ma_size : Z; ma_map : option Z; ma_cells : Z -> V }.
  (** 66-73: constructor; [ok]: mmap succeeds; anonymous memory is zero filled *)
  Definition ma_new (ok : bool) : outcome mmap_anon :=
    if ok then Ok (mkMA size_increment (Some (to_u64 (sz * size_increment))) (fun _ => zv)) else Throw EBadAlloc.
  (** 79-90: set; mremap keeps the common part and adds zero bytes; mremap to size 0 fails *)
  Definition ma_set (id : Z) (v : V) (ok : bool) (s : mmap_anon) : outcome mmap_anon :=
    let! s1 :=
      if id >=? ma_size s then
        let new_size := to_u64 (id + size_increment) in
        let bytes := to_u64 (sz * new_size) in
        match ma_map s with
        | None => UB
        | Some old =>
            if ok && (0 <? bytes) then
              Ok (mkMA new_size (Some bytes)
                    (fun i => if inside_bytes (Z.min old bytes) i then ma_cells s i else zv))
            else Throw EBadAlloc
        end
      else Ok s in
    match ma_map s1 with
    | Some b => if inside_bytes b id then Ok (mkMA (ma_size s1) (ma_map s1) (fupd (ma_cells s1) id v)) else UB
    | None => UB
    end.
  (** 92-94: operator[] *)
  Definition ma_get (id : Z) (s : mmap_anon) : outcome V :=
    match ma_map s with
    | Some b => if inside_bytes b id then Ok (ma_cells s id) else UB
    | None => UB
    end.
  (** 104-106: clear (m_size and m_items keep their values) *)
  Definition ma_clear (s : mmap_anon) : mmap_anon := mkMA (ma_size s) None (ma_cells s).

  (* ---- storage/byid/mmap_file.hpp ---- *)
  (** the backing file: its size in bytes and its contents (zero beyond the size) *)
  Record file := mkFile { f_bytes : Z; f_cells : Z -> V }.
  Definition file_empty : file := mkFile 0 (fun _ => zv).
  (** 149-153: m_size, m_items, m_fd *)
  Record mmap_file := mkMF { mf_size : Z; mf_map : option Z; mf_file : file }.
  (** ftruncate to a larger size adds zero bytes *)
  Definition file_grow (bytes : Z) (f : file) : file := if f_bytes f <? bytes then mkFile bytes (f_cells f) else f.
  (** 66-102: constructor on an existing or new file that is not removed; [ok]: all system
      calls succeed *)
  Definition mf_open (f : file) (ok : bool) : outcome mmap_file :=
    if ok then Ok (mkMF 1 (Some (to_u64 (sz * 1))) (file_grow (to_u64 (sz * 1)) f)) else Throw EBadAlloc.
  (** memory access through the shared mapping: inside the mapping and inside the file *)
  Definition mf_access (s : mmap_file) (id : Z) : bool :=
    match mf_map s with
    | Some b => inside_bytes b id && inside_bytes (f_bytes (mf_file s)) id
    | None => false
    end.
  (** 108-129: set *)
  Definition mf_set (id : Z) (v : V) (ok : bool) (s : mmap_file) : outcome mmap_file :=
    let! s1 :=
      if id >=? mf_size s then
        let new_size := to_u64 (id + size_increment) in
        let bytes := to_u64 (sz * new_size) in
        if ok && (0 <? bytes) then Ok (mkMF new_size (Some bytes) (file_grow bytes (mf_file s))) else Throw EBadAlloc
      else Ok s in
    if mf_access s1 id
    then Ok (mkMF (mf_size s1) (mf_map s1) (mkFile (f_bytes (mf_file s1)) (fupd (f_cells (mf_file s1)) id v)))
    else UB.
  (** 131-133: operator[] *)
  Definition mf_get (id : Z) (s : mmap_file) : outcome V :=
    if mf_access s id then Ok (f_cells (mf_file s) id) else UB.
  (** 143-145: clear, also called by the destructor 104-106; the file keeps its contents
      (the descriptor m_fd is never closed, which has no effect here) *)
  Definition mf_clear (s : mmap_file) : mmap_file := mkMF (mf_size s) None (mf_file s).

  (* ---- storage/byid/sparse_table.hpp ---- *)
  (** 95-97: m_grow_size and a google::sparsetable: a size and the set cells *)
  Record sparse_table := mkSP { sp_grow : Z; sp_size : Z; sp_cells : Z -> option V }.
  (** 58-63: constructor *)
  Definition sp_new (grow : Z) : sparse_table := mkSP grow grow (fun _ => None).
  (** sparsetable::resize forgets cells beyond the new size *)
  Definition sp_resize (n : Z) (s : sparse_table) : sparse_table :=
    mkSP (sp_grow s) n (fun i => if i <? n then sp_cells s i else None).
  (** 65-70: set *)
  Definition sp_set (id : Z) (v : V) (s : sparse_table) : outcome sparse_table :=
    let s1 := if id >=? sp_size s then sp_resize (to_u64 (id + sp_grow s)) s else s in
    if (0 <=? id) && (id <? sp_size s1) then Ok (mkSP (sp_grow s1) (sp_size s1) (fupd (sp_cells s1) id (Some v))) else UB.
  (** 72-77: operator[] *)
  Definition sp_get (id : Z) (s : sparse_table) : outcome V :=
    if id >=? sp_size s then Ok dflt
    else if (0 <=? id) && (id <? sp_size s) then Ok (match sp_cells s id with Some v => v | None => dflt end) else UB.
  (** 89-91: clear *)
  Definition sp_clear (s : sparse_table) : sparse_table := mkSP (sp_grow s) 0 (fun _ => None).

  (* ---- storage/byid/stl_map.hpp ---- *)
  (** 72: std::map<uint64_t, TValue>, as a list sorted by id *)
  Definition stl_map := list (Z * V).
  (** 51-53: set *)
  Fixpoint sm_set (id : Z) (v : V) (m : stl_map) : stl_map :=
    match m with
    | [] => [(id, v)]
    | (i, w) :: r => if id <? i then (id, v) :: m else if id =? i then (id, v) :: r else (i, w) :: sm_set id v r
    end.
  (** 55-57: operator[], map::at throws out_of_range *)
  Fixpoint sm_get (id : Z) (m : stl_map) : outcome V :=
    match m with
    | [] => Throw EOutOfRange
    | (i, w) :: r => if id =? i then Ok w else sm_get id r
    end.
  (** 67-68: clear does nothing *)
  Definition sm_clear (m : stl_map) : stl_map := m.

  (* ---- storage/byid/vector.hpp ---- *)
  (** 49-69, 109: std::vector<item_t>; the id is stored as (signed) osm_object_id_t *)
  Definition vector := list (Z * V).
  (** 81-83: set *)
  Definition vec_store (id : Z) (v : V) (m : vector) : vector := m ++ [(to_i64 id, v)].
  (** std::lower_bound on a random access range: first, count; None: fuel exhausted or an
      index outside the vector (neither happens) *)
  Fixpoint lower_bound (fuel : nat) (m : vector) (id : Z) (first count : nat) : option nat :=
    match count with
    | O => Some first
    | _ =>
        match fuel with
        | O => None
        | S fuel =>
            let step := Nat.div2 count in
            match nth_error m (first + step) with
            | None => None
            | Some (i, _) =>
                if i <? id then lower_bound fuel m id (first + step + 1) (count - (step + 1))
                else lower_bound fuel m id first step
            end
        end
    end.
  (** 85-93: operator[] *)
  Definition vec_get (id : Z) (m : vector) : option V :=
    match lower_bound (List.length m) m (to_i64 id) 0 (List.length m) with
    | None => None
    | Some p =>
        match nth_error m p with
        | None => Some dflt
        | Some (i, v) => if i =? to_i64 id then Some v else Some dflt
        end
    end.
  (** 103-105: clear *)
  Definition vec_clear (m : vector) : vector := [].
End Stores.

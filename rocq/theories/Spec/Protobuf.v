(** The protobuf wire format for the messages of osmpbf (fileformat.proto, osmformat.proto): a
    concrete instance of the libraries which Model/Pbf.v leaves open.  It is not code of the
    project; it shows that the assumptions on the libraries can be met and is used for examples.
    zlib is replaced by the identity with the size check of uncompress. *)
From Verif Require Import Base.Prelude Model.Utils Model.Pbf Spec.UtilsSpec.

(* ---- varints ---- *)
Fixpoint put_varint (fuel : nat) (n : Z) : bytes :=
  match fuel with
  | O => []
  | S f => if n <? 128 then [val_byte n] else val_byte (n mod 128 + 128) :: put_varint f (n / 128)
  end.
Fixpoint get_varint (fuel : nat) (b : bytes) : option (Z * bytes) :=
  match fuel, b with
  | O, _ | _, [] => None
  | S f, c :: r =>
      let v := byte_val c in
      if v <? 128 then Some (v, r)
      else match get_varint f r with Some (w, r') => Some (v - 128 + 128 * w, r') | None => None end
  end.
Definition vput (n : Z) : bytes := put_varint 10 n.
Definition vget (b : bytes) : option (Z * bytes) := get_varint 10 b.
(** how the types of numbers are put into a varint *)
Definition u64 (n : Z) : Z := n mod 18446744073709551616.
Definition i64_of (n : Z) : Z := if n <? 9223372036854775808 then n else n - 18446744073709551616.
Definition zigzag (n : Z) : Z := if n <? 0 then -2 * n - 1 else 2 * n.
Definition unzigzag (n : Z) : Z := if Z.even n then n / 2 else - ((n + 1) / 2).
Definition bit (b : bool) : Z := if b then 1 else 0.

(* ---- fields ---- *)
Inductive fval := FVar (n : Z) | FLen (b : bytes).
Definition field := (Z * fval)%type.
Definition put_field (f : field) : bytes :=
  match snd f with
  | FVar n => vput (fst f * 8) ++ vput n
  | FLen b => vput (fst f * 8 + 2) ++ vput (blen b) ++ b
  end.
Definition put_msg (l : list field) : bytes := flat_map put_field l.
Definition get_field (b : bytes) : option (field * bytes) :=
  match vget b with
  | None => None
  | Some (t, r) =>
      match vget r with
      | None => None
      | Some (n, r') =>
          if t mod 8 =? 0 then Some ((t / 8, FVar n), r')
          else if t mod 8 =? 2 then
            if n <=? blen r' then Some ((t / 8, FLen (firstn (Z.to_nat n) r')), skipn (Z.to_nat n) r') else None
          else None
      end
  end.
Fixpoint get_fields (fuel : nat) (b : bytes) : option (list field) :=
  match b with
  | [] => Some []
  | _ => match fuel with
         | O => None
         | S f => match get_field b with
                  | None => None
                  | Some (x, r) => match get_fields f r with Some l => Some (x :: l) | None => None end
                  end
         end
  end.
Definition get_msg (b : bytes) : option (list field) := get_fields (List.length b) b.
Definition all_of (k : Z) (l : list field) : list fval := map snd (filter (fun f => fst f =? k) l).

(* ---- reading the fields of a message ---- *)
Definition last_var (k : Z) (l : list field) : option Z :=
  fold_left (fun r v => match v with FVar n => Some n | FLen _ => r end) (all_of k l) None.
Definition last_len (k : Z) (l : list field) : option bytes :=
  fold_left (fun r v => match v with FLen b => Some b | FVar _ => r end) (all_of k l) None.
Definition lens (k : Z) (l : list field) : list bytes :=
  flat_map (fun v => match v with FLen b => [b] | FVar _ => [] end) (all_of k l).
(** packed repeated numbers *)
Fixpoint get_varints (fuel : nat) (b : bytes) : option (list Z) :=
  match b with
  | [] => Some []
  | _ => match fuel with
         | O => None
         | S f => match vget b with
                  | None => None
                  | Some (n, r) => match get_varints f r with Some l => Some (n :: l) | None => None end
                  end
         end
  end.
Definition get_packed (b : bytes) : option (list Z) := get_varints (List.length b) b.
Fixpoint all_some {A} (l : list (option A)) : option (list A) :=
  match l with
  | [] => Some []
  | Some x :: r => match all_some r with Some y => Some (x :: y) | None => None end
  | None :: _ => None
  end.
Definition omap {A B} (f : A -> B) (x : option A) : option B := match x with Some a => Some (f a) | None => None end.
Definition nums (k : Z) (l : list field) : option (list Z) :=
  omap (@List.concat Z) (all_some (map (fun v => match v with FVar n => Some [n] | FLen b => get_packed b end) (all_of k l))).
Notation "'do' x <- e ; f" := (match e with Some x => f | None => None end) (at level 60, x pattern, e at level 50, right associativity).
Definition sub {A} (get : bytes -> option A) (k : Z) (l : list field) : option (option A) :=
  match last_len k l with None => Some None | Some b => omap Some (get b) end.
Definition subs {A} (get : bytes -> option A) (k : Z) (l : list field) : option (list A) := all_some (map get (lens k l)).
Definition dflt (x : option Z) (d : Z) : Z := match x with Some n => n | None => d end.

(* ---- writing fields ---- *)
Definition packed (k : Z) (enc : Z -> Z) (l : list Z) : list field :=
  match l with [] => [] | _ => [(k, FLen (flat_map (fun n => vput (enc n)) l))] end.
Definition opt {A} (k : Z) (put : A -> fval) (x : option A) : list field := match x with Some a => [(k, put a)] | None => [] end.
Definition str (s : string) : bytes := list_ascii_of_string s.

(* ---- fileformat.proto ---- *)
Definition put_bh (h : blob_header) : bytes := put_msg [(1, FLen (str (bh_type h))); (3, FVar (u64 (bh_datasize h)))].
Definition get_bh (b : bytes) : option blob_header :=
  do l <- get_msg b; do t <- last_len 1 l; do n <- last_var 3 l; Some (mkBH (string_of_list_ascii t) (to_i32 n)).
Definition put_blob (b : blob) : bytes :=
  put_msg (opt 1 FLen (b_raw b) ++ [(2, FVar (u64 (b_raw_size b)))] ++ opt 3 FLen (b_zlib b) ++ opt 4 FLen (b_lzma b)).
Definition get_blob (b : bytes) : option blob :=
  do l <- get_msg b; Some (mkBlob (last_len 1 l) (to_i32 (dflt (last_var 2 l) 0)) (last_len 3 l) (last_len 4 l)).

(* ---- osmformat.proto ---- *)
Definition put_bbox (b : hbbox) : bytes :=
  put_msg [(1, FVar (zigzag (bb_left b))); (2, FVar (zigzag (bb_right b))); (3, FVar (zigzag (bb_top b))); (4, FVar (zigzag (bb_bottom b)))].
Definition get_bbox (b : bytes) : option hbbox :=
  do l <- get_msg b;
  do x1 <- last_var 1 l; do x2 <- last_var 2 l; do x3 <- last_var 3 l; do x4 <- last_var 4 l;
  Some (mkBB (unzigzag x1) (unzigzag x2) (unzigzag x3) (unzigzag x4)).
Definition put_hb (h : header_block) : bytes :=
  put_msg (opt 1 (fun b => FLen (put_bbox b)) (hb_bbox h) ++ map (fun s => (4, FLen (str s))) (hb_features h) ++
           opt 16 (fun s => FLen (str s)) (hb_program h)).
Definition get_hb (b : bytes) : option header_block :=
  do l <- get_msg b; do bb <- sub get_bbox 1 l;
  Some (mkHB bb (map string_of_list_ascii (lens 4 l)) (omap string_of_list_ascii (last_len 16 l))).
Definition put_info (i : pinfo) : bytes :=
  put_msg ([(1, FVar (u64 (i_version i))); (2, FVar (u64 (i_timestamp i))); (3, FVar (u64 (i_changeset i)));
            (4, FVar (u64 (i_uid i))); (5, FVar (i_user_sid i))] ++ opt 6 (fun b => FVar (bit b)) (i_visible i)).
Definition get_info (b : bytes) : option pinfo :=
  do l <- get_msg b;
  Some (mkPI (to_i32 (dflt (last_var 1 l) (-1))) (i64_of (dflt (last_var 2 l) 0)) (i64_of (dflt (last_var 3 l) 0))
             (to_i32 (dflt (last_var 4 l) 0)) (to_u32 (dflt (last_var 5 l) 0)) (omap (fun n => negb (n =? 0)) (last_var 6 l))).
(** fields 1 to 4 of Node, Way and Relation; the id of a Node is a sint64, the others are int64 *)
Definition common_fields (enc : Z -> Z) (c : pcommon) : list field :=
  [(1, FVar (enc (c_id c)))] ++ packed 2 u64 (c_keys c) ++ packed 3 u64 (c_vals c) ++ opt 4 (fun i => FLen (put_info i)) (c_info c).
Definition get_common (dec : Z -> Z) (l : list field) : option pcommon :=
  do id <- last_var 1 l; do ks <- nums 2 l; do vs <- nums 3 l; do i <- sub get_info 4 l;
  Some (mkPC (dec id) (map to_u32 ks) (map to_u32 vs) i).
Definition put_node (p : pnode) : bytes :=
  put_msg (common_fields zigzag (pn_common p) ++ [(8, FVar (zigzag (pn_lat p))); (9, FVar (zigzag (pn_lon p)))]).
Definition get_node (b : bytes) : option pnode :=
  do l <- get_msg b; do c <- get_common unzigzag l; do y <- last_var 8 l; do x <- last_var 9 l; Some (mkPN c (unzigzag y) (unzigzag x)).
Definition put_way (p : pway) : bytes := put_msg (common_fields u64 (pw_common p) ++ packed 8 zigzag (pw_refs p)).
Definition get_way (b : bytes) : option pway :=
  do l <- get_msg b; do c <- get_common i64_of l; do rs <- nums 8 l; Some (mkPW c (map unzigzag rs)).
Definition put_rel (p : prelation) : bytes :=
  put_msg (common_fields u64 (pr_common p) ++ packed 8 u64 (pr_roles p) ++ packed 9 zigzag (pr_memids p) ++ packed 10 u64 (pr_types p)).
Definition get_rel (b : bytes) : option prelation :=
  do l <- get_msg b; do c <- get_common i64_of l; do rs <- nums 8 l; do ms <- nums 9 l; do ts <- nums 10 l;
  Some (mkPR c (map to_i32 rs) (map unzigzag ms) ts).
Definition put_dinfo (i : pdenseinfo) : bytes :=
  put_msg (packed 1 u64 (di_version i) ++ packed 2 zigzag (di_timestamp i) ++ packed 3 zigzag (di_changeset i) ++
           packed 4 zigzag (di_uid i) ++ packed 5 zigzag (di_user_sid i) ++ packed 6 (fun n => n) (map bit (di_visible i))).
Definition get_dinfo (b : bytes) : option pdenseinfo :=
  do l <- get_msg b; do a1 <- nums 1 l; do a2 <- nums 2 l; do a3 <- nums 3 l; do a4 <- nums 4 l; do a5 <- nums 5 l; do a6 <- nums 6 l;
  Some (mkDI (map to_i32 a1) (map unzigzag a2) (map unzigzag a3) (map unzigzag a4) (map unzigzag a5) (map (fun n => negb (n =? 0)) a6)).
Definition put_dense (d : pdense) : bytes :=
  put_msg (packed 1 zigzag (dn_id d) ++ opt 5 (fun i => FLen (put_dinfo i)) (dn_info d) ++ packed 8 zigzag (dn_lat d) ++
           packed 9 zigzag (dn_lon d) ++ packed 10 u64 (dn_kv d)).
Definition get_dense (b : bytes) : option pdense :=
  do l <- get_msg b; do a1 <- nums 1 l; do i <- sub get_dinfo 5 l; do a8 <- nums 8 l; do a9 <- nums 9 l; do a10 <- nums 10 l;
  Some (mkDN (map unzigzag a1) i (map unzigzag a8) (map unzigzag a9) (map to_i32 a10)).
Definition put_group (g : pgroup) : bytes :=
  put_msg (map (fun p => (1, FLen (put_node p))) (g_nodes g) ++ opt 2 (fun d => FLen (put_dense d)) (g_dense g) ++
           map (fun p => (3, FLen (put_way p))) (g_ways g) ++ map (fun p => (4, FLen (put_rel p))) (g_rels g)).
Definition get_group (b : bytes) : option pgroup :=
  do l <- get_msg b; do ns <- subs get_node 1 l; do d <- sub get_dense 2 l; do ws <- subs get_way 3 l; do rs <- subs get_rel 4 l;
  Some (mkPG ns d ws rs).
Definition put_strings (l : list string) : bytes := put_msg (map (fun s => (1, FLen (str s))) l).
Definition get_strings (b : bytes) : option (list string) := do l <- get_msg b; Some (map string_of_list_ascii (lens 1 l)).
Definition put_pb (b : pblock) : bytes :=
  put_msg ([(1, FLen (put_strings (pb_strings b)))] ++ map (fun g => (2, FLen (put_group g))) (pb_groups b) ++
           [(17, FVar (u64 (pb_granularity b))); (18, FVar (u64 (pb_date_granularity b)));
            (19, FVar (u64 (pb_lat_offset b))); (20, FVar (u64 (pb_lon_offset b)))]).
Definition get_pb (b : bytes) : option pblock :=
  do l <- get_msg b; do s <- last_len 1 l; do ss <- get_strings s; do gs <- subs get_group 2 l;
  Some (mkPB ss gs (to_i32 (dflt (last_var 17 l) 100)) (i64_of (dflt (last_var 19 l) 0)) (i64_of (dflt (last_var 20 l) 0))
             (to_i32 (dflt (last_var 18 l) 1000))).

Definition protobuf : codec :=
  mkCodec put_bh get_bh put_blob get_blob put_hb get_hb put_pb get_pb
    (fun d => d) (fun d n => if blen d <=? n then Some d else None)
    (fun p => blen (put_way p)) (fun p => blen (put_rel p)) insertion_by_count.

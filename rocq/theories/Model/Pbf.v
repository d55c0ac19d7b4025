(** Reading and writing PBF files: input/pbf.hpp and output/pbf.hpp.
    The protobuf library (messages to bytes and back, ByteSize), zlib and the order of equal
    elements in a std::multimap are not part of the code: they are functions collected in the
    record [codec].  Protobuf messages are records; setters convert to the integer type of the
    field.  Fields that are absent in a message have the default value of osmpbf's .proto files,
    only for fields whose presence the code asks for there is an option.
    Debug output is not modelled. *)
From Verif Require Import Base.Prelude Model.Osm Model.Float Model.Utils Model.Attr Model.OsmFile Model.Handler.

(* ---- bytes ---- *)
Definition bytes := list ascii.
Definition blen (b : bytes) : Z := Z.of_nat (List.length b).
Definition byte_val (c : ascii) : Z := Z.of_N (N_of_ascii c).
Definition val_byte (z : Z) : ascii := ascii_of_N (Z.to_N (z mod 256)).
(** osmpbf.h: max_blob_header_size, max_uncompressed_blob_size, lonlat_resolution *)
Definition max_blob_header_size : Z := 65536.
Definition max_uncompressed_blob_size : Z := 33554432.
Definition lonlat_resolution : Z := 1000000000.

(* ---- messages (osmpbf: fileformat.proto, osmformat.proto) ---- *)
Record blob_header := mkBH { bh_type : string; bh_datasize : Z }.
Record blob := mkBlob { b_raw : option bytes; b_raw_size : Z; b_zlib : option bytes; b_lzma : option bytes }.
Record hbbox := mkBB { bb_left : Z; bb_right : Z; bb_top : Z; bb_bottom : Z }.
Record header_block := mkHB { hb_bbox : option hbbox; hb_features : list string; hb_program : option string }.
Record pinfo := mkPI { i_version : Z; i_timestamp : Z; i_changeset : Z; i_uid : Z; i_user_sid : Z; i_visible : option bool }.
(** what Node, Way and Relation have in common *)
Record pcommon := mkPC { c_id : Z; c_keys : list Z; c_vals : list Z; c_info : option pinfo }.
Record pnode := mkPN { pn_common : pcommon; pn_lat : Z; pn_lon : Z }.
Record pway := mkPW { pw_common : pcommon; pw_refs : list Z }.
Record prelation := mkPR { pr_common : pcommon; pr_roles : list Z; pr_memids : list Z; pr_types : list Z }.
Record pdenseinfo := mkDI { di_version : list Z; di_timestamp : list Z; di_changeset : list Z; di_uid : list Z;
                            di_user_sid : list Z; di_visible : list bool }.
Record pdense := mkDN { dn_id : list Z; dn_info : option pdenseinfo; dn_lat : list Z; dn_lon : list Z; dn_kv : list Z }.
Record pgroup := mkPG { g_nodes : list pnode; g_dense : option pdense; g_ways : list pway; g_rels : list prelation }.
Record pblock := mkPB { pb_strings : list string; pb_groups : list pgroup; pb_granularity : Z;
                        pb_lat_offset : Z; pb_lon_offset : Z; pb_date_granularity : Z }.

(** What the libraries do. *)
Record codec := mkCodec {
  ser_bh : blob_header -> bytes; par_bh : bytes -> option blob_header;
  ser_blob : blob -> bytes; par_blob : bytes -> option blob;
  ser_hb : header_block -> bytes; par_hb : bytes -> option header_block;
  ser_pb : pblock -> bytes; par_pb : bytes -> option pblock;
  (* deflate with Z_FINISH into an unlimited buffer *)
  zdeflate : bytes -> bytes;
  (* uncompress into a buffer of the given size; None: not Z_OK *)
  zinflate : bytes -> Z -> option bytes;
  (* ByteSize() of a way and of a relation *)
  size_way : pway -> Z; size_rel : prelation -> Z;
  (* iteration order of the multimap in store_stringtable *)
  mm_order : list (string * string_info) -> list (string * string_info) }.

(* ---- system calls on the file ---- *)
(** ::write: everything, only some bytes (but at most what there is), or an error *)
Inductive wres := WAll | WSome (n : nat) | WErr.
Record ofd := mkOfd { fd_out : bytes; fd_sched : list wres }.
Definition sys_write (d : bytes) (f : ofd) : outcome ofd :=
  match fd_sched f with
  | [] => Ok (mkOfd (fd_out f ++ d) [])
  | WAll :: r => Ok (mkOfd (fd_out f ++ d) r)
  | WSome n :: r => Ok (mkOfd (fd_out f ++ firstn n d) r)
  | WErr :: _ => Throw ERuntime
  end.
(** ::read of up to n > 0 bytes: up to k bytes but at least one unless the end is reached,
    or an error *)
Inductive rres := RSome (k : nat) | RErr.
Record ifd := mkIfd { in_rest : bytes; in_sched : list rres }.
Definition sys_read (n : nat) (f : ifd) : ifd * option bytes :=
  match in_sched f with
  | [] => (mkIfd (skipn n (in_rest f)) [], Some (firstn n (in_rest f)))
  | RErr :: r => (mkIfd (in_rest f) r, None)
  | RSome k :: r =>
      let m := Nat.min n (Nat.max 1 k) in
      (mkIfd (skipn m (in_rest f)) r, Some (firstn m (in_rest f)))
  end.

(* ---- writing blobs ---- *)
(** output/pbf.hpp: 139-210 the members which configure the writer, output.hpp 41-42 the file type
    and the generator.  m_add_visible (767) is has_multiple_object_versions of the file. *)
Record pcfg := mkCfg { cf_dense : bool; cf_compress : bool; cf_meta : bool; cf_type : ftype;
                       cf_gran : Z; cf_dgran : Z; cf_generator : string }.
Definition cf_visible (c : pcfg) : bool := ft_multiple (cf_type c).

Section Pbf.
Variable K : codec.

(** output/pbf.hpp 247-290: zlib_compress; deflate gets 32 MB of output space *)
Definition zlib_compress (d : bytes) : outcome bytes :=
  let z := zdeflate K d in
  if blen z >? max_uncompressed_blob_size then Throw ERuntime else Ok z.
(** the four bytes of htonl(size) *)
Definition be32 (n : Z) : bytes := [val_byte (n / 16777216); val_byte (n / 65536); val_byte (n / 256); val_byte n].
(** output/pbf.hpp 299-358: store_blob, with the message already serialized (304-307) *)
Definition store_blob (compress : bool) (type : string) (data : bytes) (f : ofd) : outcome ofd :=
  let! b := if compress
            then let! z := zlib_compress data in Ok (mkBlob None (to_i32 (blen data)) (Some z) None)
            else Ok (mkBlob (Some data) (to_i32 (blen data)) None None) in
  let out := ser_blob K b in
  let head := ser_bh K (mkBH type (to_i32 (blen out))) in
  let! f1 := sys_write (be32 (to_u32 (blen head))) f in
  let! f2 := sys_write head f1 in
  sys_write out f2.

(* ---- reading blobs ---- *)
(** input/pbf.hpp 382-384; the shift of a byte > 127 by 24 gives a negative int *)
Definition convert_from_network_byte_order (a b c d : ascii) : Z :=
  to_i32 (byte_val a * 16777216 + byte_val b * 65536 + byte_val c * 256 + byte_val d).
(** The loops 394-402, 412-418, 436-442: read until [want] bytes are there, the end of the file
    or an error is met.  Every turn uses up at least one byte of the file or ends the loop. *)
Inductive rloop := RAll (b : bytes) | REof | RFail | RFuel.
Fixpoint read_loop (fuel : nat) (want : nat) (acc : bytes) (f : ifd) : ifd * rloop :=
  match want with
  | O => (f, RAll acc)
  | S _ =>
      match fuel with
      | O => (f, RFuel)
      | S fuel' =>
          match sys_read want f with
          | (f', None) => (f', RFail)
          | (f', Some []) => (f', REof)
          | (f', Some b) => read_loop fuel' (want - List.length b) (acc ++ b) f'
          end
      end
  end.
Definition read_n (want : nat) (f : ifd) : ifd * rloop := read_loop (S (List.length (in_rest f))) want [] f.
(** input/pbf.hpp 391-424: read_blob_header; None is the result false *)
Definition read_blob_header (f : ifd) : ifd * outcome (option blob_header) :=
  match read_n 4 f with
  | (f1, RAll [a; b; c; d]) =>
      let size := convert_from_network_byte_order a b c d in
      if (size >? max_blob_header_size) || (size <? 0) then (f1, Throw ERuntime)
      else match read_n (Z.to_nat size) f1 with
           | (f2, RAll h) => match par_bh K h with Some x => (f2, Ok (Some x)) | None => (f2, Throw ERuntime) end
           | (f2, RFuel) => (f2, UB)
           | (f2, _) => (f2, Throw ERuntime)
           end
  | (f1, REof) => (f1, Ok None)
  | (f1, RFail) => (f1, Throw ERuntime)
  | (f1, _) => (f1, UB)
  end.
(** input/pbf.hpp 429-461: read_blob.  The assert of line 451 is active (no NDEBUG). *)
Definition unpack_blob (b : blob) : outcome bytes :=
  match b_raw b with
  | Some r => Ok r
  | None =>
    match b_zlib b with
    | Some z =>
        let raw_size := to_u64 (b_raw_size b) in
        if raw_size >? max_uncompressed_blob_size then AssertFail
        else match zinflate K z raw_size with
             | Some d => if b_raw_size b =? blen d then Ok d else Throw ERuntime
             | None => Throw ERuntime
             end
    | None => Throw ERuntime
    end
  end.
Definition read_blob (size : Z) (f : ifd) : ifd * outcome bytes :=
  if (size <? 0) || (size >? max_uncompressed_blob_size) then (f, Throw ERuntime)
  else match read_n (Z.to_nat size) f with
       | (f1, RAll d) =>
           match par_blob K d with
           | Some b => (f1, unpack_blob b)
           | None => (f1, Throw ERuntime)
           end
       | (f1, RFuel) => (f1, UB)
       | (f1, _) => (f1, Throw ERuntime)
       end.
(** The loop 90-91 of parse() without what is done with a blob: the blobs (type and contents)
    up to the end of the file or an error.  Every turn uses up four bytes of the file. *)
Fixpoint read_blobs_loop (fuel : nat) (f : ifd) : list (string * bytes) * outcome unit :=
  match fuel with
  | O => ([], UB)
  | S fuel' =>
      match read_blob_header f with
      | (f1, Ok (Some h)) =>
          match read_blob (bh_datasize h) f1 with
          | (f2, Ok d) => let (r, e) := read_blobs_loop fuel' f2 in ((bh_type h, d) :: r, e)
          | (_, Throw e) => ([], Throw e)
          | (_, UB) => ([], UB)
          | (_, AssertFail) => ([], AssertFail)
          end
      | (_, Ok None) => ([], Ok tt)
      | (_, Throw e) => ([], Throw e)
      | (_, UB) => ([], UB)
      | (_, AssertFail) => ([], AssertFail)
      end
  end.
Definition read_blobs (f : ifd) : list (string * bytes) * outcome unit :=
  read_blobs_loop (S (List.length (in_rest f))) f.

(* ---- decoding ---- *)
(** a C string ends at the first NUL byte *)
Fixpoint cstr (s : string) : string :=
  match s with
  | EmptyString => EmptyString
  | String c r => if Ascii.eqb c zero then EmptyString else String c (cstr r)
  end.
(** element access of repeated fields (release build of protobuf: no range check) *)
Definition rep {A} (l : list A) (i : Z) : outcome A :=
  if i <? 0 then UB else match nth_error l (Z.to_nat i) with Some x => Ok x | None => UB end.
(** stringtable.s(i).data() *)
Definition str (tbl : list string) (i : Z) : outcome string := let! s := rep tbl i in Ok (cstr s).
(** int64_t arithmetic *)
Definition i64 (x : Z) : outcome Z := if in_i64b x then Ok x else UB.
Definition user_result (s : string) (a : attrs) : outcome attrs :=
  match user_text s a with (a', None) => Ok a' | (_, Some e) => Throw e end.
(** input/pbf.hpp 194-204, 233-242, 274-283: version, changeset, timestamp, uid, user, visible *)
Definition decode_info (tbl : list string) (dfac : Z) (i : option pinfo) (a : attrs) : outcome attrs :=
  match i with
  | None => Ok a
  | Some i =>
      let! ts := i64 (i_timestamp i * dfac) in
      let a1 := set_uid (to_i32 (i_uid i)) (set_timestamp ts (set_changeset (to_i32 (i_changeset i)) (set_version (to_u32 (i_version i)) a))) in
      let! u := str tbl (i_user_sid i) in
      let! a2 := user_result u a1 in
      Ok (match i_visible i with Some v => set_visible v a2 | None => a2 end)
  end.
(** 206-210, 244-248, 285-289 *)
Fixpoint decode_tags (tbl : list string) (ks vs : list Z) (ts : tag_list) : outcome tag_list :=
  match ks with
  | [] => Ok ts
  | k :: kr =>
      match vs with
      | [] => UB
      | v :: vr =>
          let! ks := str tbl k in let! vs := str tbl v in
          decode_tags tbl kr vr (tl_add ts ks vs)
      end
  end.
Definition decode_common (tbl : list string) (dfac : Z) (c : pcommon) : outcome attrs :=
  let! a := decode_info tbl dfac (c_info c) (set_id (c_id c) attrs_new) in
  let! ts := decode_tags tbl (c_keys c) (c_vals c) (o_tags a) in
  Ok (set_tags ts a).
(** 212-214, 356-358: the coordinates; C++ division truncates.  x is a longitude, y a latitude. *)
Definition decode_coord (v gran off : Z) : outcome Z :=
  let! a := i64 (v * gran) in let! b := i64 (a + off) in
  Ok (Z.quot b (lonlat_resolution / coordinate_precision)).
Definition decode_pos (b : pblock) (lon lat : Z) : outcome position :=
  let! x := decode_coord lon (pb_granularity b) (pb_lon_offset b) in
  let! y := decode_coord lat (pb_granularity b) (pb_lat_offset b) in
  Ok (pos_of_int64 x y).
(** 98: m_date_factor *)
Definition date_factor (b : pblock) : Z := Z.quot (pb_date_granularity b) 1000.
(** 187-217: one node *)
Definition decode_node (b : pblock) (n : pnode) : outcome object :=
  let! a := decode_common (pb_strings b) (date_factor b) (pn_common n) in
  let! p := decode_pos b (pn_lon n) (pn_lat n) in
  Ok (ONode (mkNode a p)).
(** 250-254: the references; ref is a uint64_t, add_node takes an int64_t *)
Fixpoint decode_refs (ref : Z) (rs : list Z) (ns : list way_node) : list way_node :=
  match rs with
  | [] => ns
  | r :: rest => let ref := to_u64 (ref + r) in decode_refs ref rest (ns ++ [mkWN (to_i64 ref) undef_pos])
  end.
Definition decode_way (b : pblock) (w : pway) : outcome object :=
  let! a := decode_common (pb_strings b) (date_factor b) (pw_common w) in
  Ok (OWay (mkWay a (decode_refs 0 (pw_refs w) []))).
(** 291-307: the members *)
Definition member_char (t : Z) : ascii :=
  if t =? 0 then "n"%char else if t =? 1 then "w"%char else if t =? 2 then "r"%char else "x"%char.
Fixpoint decode_members (tbl : list string) (ref : Z) (ts ids roles : list Z) (ms : list member) : outcome (list member) :=
  match ts with
  | [] => Ok ms
  | t :: tr =>
      match ids, roles with
      | i :: ir, r :: rr =>
          let ref := to_u64 (ref + i) in
          let! role := str tbl r in
          match add_member ms (member_char t) (to_i64 ref) role with
          | (ms', None) => decode_members tbl ref tr ir rr ms'
          | (_, Some e) => Throw e
          end
      | _, _ => UB
      end
  end.
Definition decode_relation (b : pblock) (r : prelation) : outcome object :=
  let! a := decode_common (pb_strings b) (date_factor b) (pr_common r) in
  let! ms := decode_members (pb_strings b) 0 (pr_types r) (pr_memids r) (pr_roles r) [] in
  Ok (ORel (mkRelation a ms)).
(** 319-328: the running values of parse_dense_node_group; last_dense_tag is replaced by the part
    of keys_vals not read yet *)
Record dstate := mkDS { ds_id : Z; ds_lat : Z; ds_lon : Z; ds_uid : Z; ds_sid : Z; ds_cs : Z; ds_ts : Z; ds_kv : list Z }.
(** 360-373: the tags of a node up to the next 0 *)
Fixpoint decode_kv (fuel : nat) (tbl : list string) (kv : list Z) (ts : tag_list) : outcome (list Z * tag_list) :=
  match kv with
  | [] => Ok ([], ts)
  | k :: r =>
      if k =? 0 then Ok (r, ts)
      else match fuel with
           | O => UB
           | S fuel' =>
               match r with
               | [] => UB
               | v :: r' =>
                   let! ks := str tbl k in let! vs := str tbl v in
                   decode_kv fuel' tbl r' (tl_add ts ks vs)
               end
           end
  end.
(** 337-353: the info part of entity number e *)
Definition decode_dinfo (tbl : list string) (dfac e : Z) (i : option pdenseinfo) (s : dstate) (a : attrs)
  : outcome (dstate * attrs) :=
  match i with
  | None => Ok (s, a)
  | Some i =>
      let! c := rep (di_changeset i) e in let! cs := i64 (ds_cs s + c) in
      let! t := rep (di_timestamp i) e in let! ts := i64 (ds_ts s + t) in
      let! u := rep (di_uid i) e in let! uid := i64 (ds_uid s + u) in
      let! x := rep (di_user_sid i) e in let! sid := i64 (ds_sid s + x) in
      let! v := rep (di_version i) e in
      let! tsf := i64 (ts * dfac) in
      (* stringtable.s(int): the argument is an int *)
      let! us := str tbl (to_i32 sid) in
      let! a1 := user_result us (set_uid (to_i32 uid) (set_timestamp tsf (set_changeset (to_i32 cs) (set_version (to_u32 v) a)))) in
      let! a2 := match di_visible i with
                 | [] => Ok a1
                 | vs => let! w := rep vs e in Ok (set_visible w a1)
                 end in
      Ok (mkDS (ds_id s) (ds_lat s) (ds_lon s) uid sid cs ts (ds_kv s), a2)
  end.
(** 332-376: entity number e *)
Definition decode_dense1 (b : pblock) (d : pdense) (e : Z) (s : dstate) : outcome (dstate * object) :=
  let! di := rep (dn_id d) e in let! id := i64 (ds_id s + di) in
  let! (s1, a) := decode_dinfo (pb_strings b) (date_factor b) e (dn_info d) s (set_id id attrs_new) in
  let! dla := rep (dn_lat d) e in let! lat := i64 (ds_lat s + dla) in
  let! dlo := rep (dn_lon d) e in let! lon := i64 (ds_lon s + dlo) in
  let! p := decode_pos b lon lat in
  let! (kv, ts) := decode_kv (List.length (ds_kv s)) (pb_strings b) (ds_kv s) (o_tags a) in
  Ok (mkDS id lat lon (ds_uid s1) (ds_sid s1) (ds_cs s1) (ds_ts s1) kv, ONode (mkNode (set_tags ts a) p)).

(** Objects delivered until the end, an exception or undefined behaviour. *)
Definition deliver : Type := list object * outcome unit.
Fixpoint decode_list {A} (f : A -> outcome object) (l : list A) : deliver :=
  match l with
  | [] => ([], Ok tt)
  | x :: r =>
      match f x with
      | Ok o => let (os, e) := decode_list f r in (o :: os, e)
      | Throw e => ([], Throw e)
      | UB => ([], UB)
      | AssertFail => ([], AssertFail)
      end
  end.
(** 330-331: the loop over the entities; n entities are left, e is the number of the next *)
Fixpoint decode_dense (n : nat) (b : pblock) (d : pdense) (e : Z) (s : dstate) : deliver :=
  match n with
  | O => ([], Ok tt)
  | S n' =>
      match decode_dense1 b d e s with
      | Ok (s', o) => let (os, r) := decode_dense n' b d (e + 1) s' in (o :: os, r)
      | Throw x => ([], Throw x)
      | UB => ([], UB)
      | AssertFail => ([], AssertFail)
      end
  end.
(** 163-179: parse_group; the empty specializations for handlers without a callback for the type
    (182-184, 220-222, 261-263, 314-316) are not modelled *)
Definition parse_group (b : pblock) (g : pgroup) : option group * outcome unit :=
  match g_dense g with
  | Some d =>
      let (os, e) := decode_dense (List.length (dn_id d)) b d 0 (mkDS 0 0 0 0 0 0 0 (dn_kv d)) in (Some (NODE, os), e)
  | None =>
    match g_ways g with
    | _ :: _ => let (os, e) := decode_list (decode_way b) (g_ways g) in (Some (WAY, os), e)
    | [] =>
      match g_rels g with
      | _ :: _ => let (os, e) := decode_list (decode_relation b) (g_rels g) in (Some (RELATION, os), e)
      | [] =>
        match g_nodes g with
        | _ :: _ => let (os, e) := decode_list (decode_node b) (g_nodes g) in (Some (NODE, os), e)
        | [] => (None, Throw ERuntime)
        end
      end
    end
  end.
(** 99-101: the groups of a block *)
Fixpoint parse_groups (b : pblock) (gs : list pgroup) : list group * outcome unit :=
  match gs with
  | [] => ([], Ok tt)
  | g :: r =>
      match parse_group b g with
      | (Some x, Ok tt) => let (xs, e) := parse_groups b r in (x :: xs, e)
      | (Some x, e) => ([x], e)
      | (None, e) => ([], e)
      end
  end.

(** osm/meta.hpp 78-87 *)
Record meta := mkMeta { mt_generator : string; mt_bounds : bounds }.
Definition meta_new : meta := mkMeta ""%string bounds_new.
(** 108-122: the required features: Some tells whether there is HistoricalInformation *)
Fixpoint check_features (fs : list string) (hist : bool) : option bool :=
  match fs with
  | [] => Some hist
  | f :: r =>
      if String.eqb f "OsmSchema-V0.6" then check_features r hist
      else if String.eqb f "DenseNodes" then check_features r hist
      else if String.eqb f "HistoricalInformation" then check_features r true
      else None
  end.
(** 102-140: a header; FileTypeOSMExpected is EOther 2, FileTypeHistoryExpected EOther 3 *)
Definition ft_eqb (a b : ftype) : bool :=
  match a, b with FtOSM, FtOSM | FtHistory, FtHistory | FtChange, FtChange => true | _, _ => false end.
Definition parse_header (expected : ftype) (h : header_block) (m : meta) : outcome meta :=
  match check_features (hb_features h) false with
  | None => Throw ERuntime
  | Some hist =>
      if ft_eqb expected FtOSM && hist then Throw (EOther 2)
      else if ft_eqb expected FtHistory && negb hist then Throw (EOther 3)
      else
        let g := match hb_program h with Some p => p | None => mt_generator m end in
        let bs := match hb_bbox h with
                  | Some b =>
                      let c := lonlat_resolution / coordinate_precision in
                      bounds_extend (bounds_extend (mt_bounds m)
                        (pos_of_int64 (Z.quot (bb_left b) c) (Z.quot (bb_bottom b) c)))
                        (pos_of_int64 (Z.quot (bb_right b) c) (Z.quot (bb_top b) c))
                  | None => mt_bounds m
                  end in
        Ok (mkMeta g bs)
  end.

(** What the reader makes of a file: the groups it hands to the handler, the meta data collected
    and how it ended.  The callbacks are made from this in Model/Handler.v (parse): a handler
    that stops reading sees a prefix. *)
Record preading := mkPRd { pr_groups : list group; pr_meta : meta; pr_end : outcome unit }.
(** 93-144: what is done with the blobs *)
Fixpoint parse_blobs (expected : ftype) (bs : list (string * bytes)) (fin : outcome unit) (m : meta) : preading :=
  match bs with
  | [] => mkPRd [] m fin
  | (t, d) :: r =>
      if String.eqb t "OSMData" then
        match par_pb K d with
        | None => mkPRd [] m (Throw ERuntime)
        | Some b =>
            match parse_groups b (pb_groups b) with
            | (gs, Ok tt) => let x := parse_blobs expected r fin m in mkPRd (gs ++ pr_groups x) (pr_meta x) (pr_end x)
            | (gs, e) => mkPRd gs m e
            end
        end
      else if String.eqb t "OSMHeader" then
        match par_hb K d with
        | None => mkPRd [] m (Throw ERuntime)
        | Some h =>
            match parse_header expected h m with
            | Ok m' => parse_blobs expected r fin m'
            | Throw e => mkPRd [] m (Throw e)
            | UB => mkPRd [] m UB
            | AssertFail => mkPRd [] m AssertFail
            end
        end
      else parse_blobs expected r fin m
  end.
Definition read_pbf (expected : ftype) (f : ifd) : preading :=
  let (bs, e) := read_blobs f in parse_blobs expected bs e meta_new.

(* ---- encoding ---- *)
(** output/pbf.hpp 463-465 *)
Definition lonlat2int (g : Z) (lonlat : double) : outcome Z :=
  d_to_i64 (d_round (d_div (d_mul lonlat (d_of_Z lonlat_resolution)) (d_of_Z g))).
(** output/pbf.hpp 470-472 *)
Definition timestamp2int (dg : Z) (ts : Z) : outcome Z :=
  d_to_i64 (d_round (d_mul (d_of_Z ts) (d_div (d_of_Z 1000) (d_of_Z dg)))).

(** The members of Output::PBF that change: the primitive block (only its groups are filled while
    writing), the three pointers into it (as positions), counters, string table and deltas, and
    the file. *)
Record pwriter := mkPWr {
  w_groups : list pgroup; w_pn : option nat; w_pw : option nat; w_pr : option nat;
  w_contents : Z; w_size : Z; w_st : stringtable;
  w_did : Z; w_dlat : Z; w_dlon : Z; w_dts : Z; w_dcs : Z; w_duid : Z; w_dsid : Z;
  w_fd : ofd }.
(** 749-775: the constructor *)
Definition pwriter_new (f : ofd) : pwriter := mkPWr [] None None None 0 0 st_new 0 0 0 0 0 0 0 f.
Definition with_st (t : stringtable) (w : pwriter) : pwriter :=
  mkPWr (w_groups w) (w_pn w) (w_pw w) (w_pr w) (w_contents w) (w_size w) t
        (w_did w) (w_dlat w) (w_dlon w) (w_dts w) (w_dcs w) (w_duid w) (w_dsid w) (w_fd w).
Definition with_groups (g : list pgroup) (w : pwriter) : pwriter :=
  mkPWr g (w_pn w) (w_pw w) (w_pr w) (w_contents w) (w_size w) (w_st w)
        (w_did w) (w_dlat w) (w_dlon w) (w_dts w) (w_dcs w) (w_duid w) (w_dsid w) (w_fd w).
Definition with_count (n : Z) (w : pwriter) : pwriter :=
  mkPWr (w_groups w) (w_pn w) (w_pw w) (w_pr w) n (w_size w) (w_st w)
        (w_did w) (w_dlat w) (w_dlon w) (w_dts w) (w_dcs w) (w_duid w) (w_dsid w) (w_fd w).
(** primitive_block_size is a uint32_t *)
Definition add_size (n : Z) (w : pwriter) : pwriter :=
  mkPWr (w_groups w) (w_pn w) (w_pw w) (w_pr w) (w_contents w) (to_u32 (w_size w + n)) (w_st w)
        (w_did w) (w_dlat w) (w_dlon w) (w_dts w) (w_dcs w) (w_duid w) (w_dsid w) (w_fd w).
Definition with_fd (f : ofd) (w : pwriter) : pwriter :=
  mkPWr (w_groups w) (w_pn w) (w_pw w) (w_pr w) (w_contents w) (w_size w) (w_st w)
        (w_did w) (w_dlat w) (w_dlon w) (w_dts w) (w_dcs w) (w_duid w) (w_dsid w) f.
Definition w_ptr (t : otype) (w : pwriter) : option nat :=
  match t with NODE => w_pn w | WAY => w_pw w | RELATION => w_pr w | _ => None end.

Definition group_new : pgroup := mkPG [] None [] [].
(** change of the group a pointer points to *)
Fixpoint upd {A} (i : nat) (f : A -> A) (l : list A) : list A :=
  match l, i with
  | [], _ => []
  | x :: r, O => f x :: r
  | x :: r, S j => x :: upd j f r
  end.
(** 915-917, 943-945, 967-969: add a group of the type if there is none in the block yet *)
Definition need_group (t : otype) (w : pwriter) : pwriter :=
  match w_ptr t w with
  | Some _ => w
  | None =>
      let i := Some (List.length (w_groups w)) in
      mkPWr (w_groups w ++ [group_new])
        (if otype_eqb t NODE then i else w_pn w) (if otype_eqb t WAY then i else w_pw w) (if otype_eqb t RELATION then i else w_pr w)
        (w_contents w) (w_size w) (w_st w)
        (w_did w) (w_dlat w) (w_dlon w) (w_dts w) (w_dcs w) (w_duid w) (w_dsid w) (w_fd w)
  end.

(** 487-492, 634-638: record the strings of the tags, key and value by turns *)
Fixpoint record_tags (ts : tag_list) (t : stringtable) : stringtable * list Z * list Z :=
  match ts with
  | [] => (t, [], [])
  | x :: r =>
      let (t1, k) := record_string (tkey x) t in
      let (t2, v) := record_string (tvalue x) t1 in
      let '(t3, ks, vs) := record_tags r t2 in (t3, k :: ks, v :: vs)
  end.
(** 481-505: apply_common_info; version goes to an int32 field, changeset to int64, uid to int32,
    keys, vals and user_sid to uint32 *)
Definition apply_common (c : pcfg) (a : attrs) (t : stringtable) : outcome (stringtable * pcommon) :=
  let '(t1, ks, vs) := record_tags (o_tags a) t in
  if cf_meta c then
    let! ts := timestamp2int (cf_dgran c) (o_timestamp a) in
    let (t2, u) := record_string (o_user a) t1 in
    Ok (t2, mkPC (o_id a) ks vs (Some (mkPI (to_i32 (o_version a)) ts (o_changeset a) (to_i32 (o_uid a)) u
                                           (if cf_visible c then Some (o_visible a) else None))))
  else Ok (t1, mkPC (o_id a) ks vs None).
(** 600-611: write_node *)
Definition write_node (c : pcfg) (n : node) (w : pwriter) : outcome pwriter :=
  let! (t, pc) := apply_common c (n_attrs n) (w_st w) in
  let! lon := lonlat2int (cf_gran c) (pos_lon (n_pos n)) in
  let! lat := lonlat2int (cf_gran c) (pos_lat (n_pos n)) in
  match w_pn w with
  | None => UB
  | Some i => Ok (with_st t (with_groups (upd i (fun g => mkPG (g_nodes g ++ [mkPN pc lat lon]) (g_dense g) (g_ways g) (g_rels g)) (w_groups w)) w))
  end.
(** keys and values by turns, then the 0 *)
Fixpoint interleave (ks vs : list Z) : list Z :=
  match ks, vs with k :: kr, v :: vr => k :: v :: interleave kr vr | _, _ => [] end.
Definition dense_new : pdense := mkDN [] None [] [] [].
Definition dinfo_new : pdenseinfo := mkDI [] [] [] [] [] [].
(** 618-667: write_dense_node; uid is an sint32 field, user_sid as well *)
Definition write_dense_node (c : pcfg) (n : node) (w : pwriter) : outcome pwriter :=
  let a := n_attrs n in
  let! (did, xid) := delta_update I64 (w_did w) (o_id a) in
  let! lon := lonlat2int (cf_gran c) (pos_lon (n_pos n)) in
  let! (dlon, xlon) := delta_update I64 (w_dlon w) lon in
  let! lat := lonlat2int (cf_gran c) (pos_lat (n_pos n)) in
  let! (dlat, xlat) := delta_update I64 (w_dlat w) lat in
  let '(t1, ks, vs) := record_tags (o_tags a) (w_st w) in
  let! (t2, dts, dcs, duid, fi) :=
    if cf_meta c then
      let! ts := timestamp2int (cf_dgran c) (o_timestamp a) in
      let! (dts, xts) := delta_update I64 (w_dts w) ts in
      let! (dcs, xcs) := delta_update I64 (w_dcs w) (o_changeset a) in
      let! (duid, xuid) := delta_update I64 (w_duid w) (o_uid a) in
      let (t2, u) := record_string (o_user a) t1 in
      Ok (t2, dts, dcs, duid, fun i : option pdenseinfo =>
        let i := match i with Some i => i | None => dinfo_new end in
        Some (mkDI (di_version i ++ [to_i32 (o_version a)]) (di_timestamp i ++ [xts]) (di_changeset i ++ [xcs])
                   (di_uid i ++ [to_i32 xuid]) (di_user_sid i ++ [u])
                   (di_visible i ++ if cf_visible c then [o_visible a] else [])))
    else Ok (t1, w_dts w, w_dcs w, w_duid w, fun i => i) in
  match w_pn w with
  | None => UB
  | Some i =>
      let f := fun g =>
        let d := match g_dense g with Some d => d | None => dense_new end in
        mkPG (g_nodes g)
          (Some (mkDN (dn_id d ++ [xid]) (fi (dn_info d)) (dn_lat d ++ [xlat]) (dn_lon d ++ [xlon])
                      (dn_kv d ++ interleave ks vs ++ [0])))
          (g_ways g) (g_rels g) in
      Ok (mkPWr (upd i f (w_groups w)) (w_pn w) (w_pw w) (w_pr w) (w_contents w) (w_size w) t2
                did dlat dlon dts dcs duid (w_dsid w) (w_fd w))
  end.
(** 681-688: the references of a way, delta encoded *)
Fixpoint encode_refs (m : Z) (rs : list Z) : outcome (list Z) :=
  match rs with
  | [] => Ok []
  | r :: rest => let! (m', x) := delta_update I64 m r in let! xs := encode_refs m' rest in Ok (x :: xs)
  end.
(** 674-692: write_way *)
Definition write_way (c : pcfg) (y : way) (w : pwriter) : outcome pwriter :=
  let! (t, pc) := apply_common c (w_attrs y) (w_st w) in
  let! refs := encode_refs delta_new (map wn_ref (w_nodes y)) in
  let p := mkPW pc refs in
  match w_pw w with
  | None => UB
  | Some i => Ok (add_size (size_way K p)
                 (with_st t (with_groups (upd i (fun g => mkPG (g_nodes g) (g_dense g) (g_ways g ++ [p]) (g_rels g)) (w_groups w)) w)))
  end.
(** 709-733: the members of a relation; an unknown type throws when role and id of the member are
    already added.  The role is an int32 field. *)
Definition member_code (t : ascii) : option Z :=
  if Ascii.eqb t "n" then Some 0 else if Ascii.eqb t "w" then Some 1 else if Ascii.eqb t "r" then Some 2 else None.
Fixpoint encode_members (m : Z) (ms : list member) (t : stringtable)
  : outcome (stringtable * list Z * list Z * list Z * option exn) :=
  match ms with
  | [] => Ok (t, [], [], [], None)
  | x :: r =>
      let (t1, k) := record_string (m_role x) t in
      let! (m', d) := delta_update I64 m (m_ref x) in
      match member_code (m_type x) with
      | None => Ok (t1, [k], [d], [], Some ERuntime)
      | Some y =>
          let! (t2, ks, ds, ys, e) := encode_members m' r t1 in
          Ok (t2, k :: ks, d :: ds, y :: ys, e)
      end
  end.
(** 699-738: write_relation: the writer afterwards and the exception, if any *)
Definition write_relation (c : pcfg) (y : relation) (w : pwriter) : outcome (pwriter * option exn) :=
  let! (t, pc) := apply_common c (r_attrs y) (w_st w) in
  let! (t2, ks, ds, ys, e) := encode_members delta_new (r_members y) t in
  let p := mkPR pc ks ds ys in
  match w_pr w with
  | None => UB
  | Some i =>
      let w' := with_st t2 (with_groups (upd i (fun g => mkPG (g_nodes g) (g_dense g) (g_ways g) (g_rels g ++ [p])) (w_groups w)) w) in
      Ok (match e with None => add_size (size_rel K p) w' | Some _ => w' end, e)
  end.

(** 442-456: map_common_string_ids *)
Fixpoint map_ids (t : stringtable) (l : list Z) : outcome (list Z) :=
  match l with
  | [] => Ok []
  | k :: r => let! j := map_string_id k t in let! js := map_ids t r in Ok (j :: js)
  end.
Definition map_common (t : stringtable) (p : pcommon) : outcome pcommon :=
  let! i := match c_info p with
            | None => Ok None
            | Some i => let! u := map_string_id (i_user_sid i) t in
                        Ok (Some (mkPI (i_version i) (i_timestamp i) (i_changeset i) (i_uid i) u (i_visible i)))
            end in
  let! ks := map_ids t (c_keys p) in
  let! vs := map_ids t (c_vals p) in
  Ok (mkPC (c_id p) ks vs i).
(** 384-390: ids in keys_vals, 0 is kept; the id goes through a uint16_t *)
Fixpoint map_kv (t : stringtable) (l : list Z) : outcome (list Z) :=
  match l with
  | [] => Ok []
  | k :: r =>
      let sid := to_u16 k in
      let! j := if sid >? 0 then map_string_id sid t else Ok k in
      let! js := map_kv t r in Ok (j :: js)
  end.
(** 398-404: user ids, delta encoded (uint32_t), stored in an sint32 field *)
Fixpoint map_users (t : stringtable) (m : Z) (l : list Z) : outcome (Z * list Z) :=
  match l with
  | [] => Ok (m, [])
  | k :: r =>
      let! j := map_string_id k t in
      let! (m1, d) := delta_update U32 m j in
      let! (m2, ds) := map_users t m1 r in Ok (m2, to_i32 d :: ds)
  end.
Definition map_dense (t : stringtable) (m : Z) (d : pdense) : outcome (Z * pdense) :=
  let! kv := map_kv t (dn_kv d) in
  match dn_info d with
  | None => Ok (m, mkDN (dn_id d) None (dn_lat d) (dn_lon d) kv)
  | Some i =>
      let! (m', us) := map_users t m (di_user_sid i) in
      Ok (m', mkDN (dn_id d) (Some (mkDI (di_version i) (di_timestamp i) (di_changeset i) (di_uid i) us (di_visible i)))
                   (dn_lat d) (dn_lon d) kv)
  end.
Fixpoint map_all {A} (f : A -> outcome A) (l : list A) : outcome (list A) :=
  match l with
  | [] => Ok []
  | x :: r => let! y := f x in let! ys := map_all f r in Ok (y :: ys)
  end.
Definition map_pnode (t : stringtable) (p : pnode) : outcome pnode :=
  let! c := map_common t (pn_common p) in Ok (mkPN c (pn_lat p) (pn_lon p)).
Definition map_pway (t : stringtable) (p : pway) : outcome pway :=
  let! c := map_common t (pw_common p) in Ok (mkPW c (pw_refs p)).
Definition map_prel (t : stringtable) (p : prelation) : outcome prelation :=
  let! c := map_common t (pr_common p) in
  let! rs := map_ids t (pr_roles p) in Ok (mkPR c rs (pr_memids p) (pr_types p)).
(** change one group of the block in a way that may fail *)
Fixpoint upd_o (i : nat) (f : pgroup -> outcome pgroup) (l : list pgroup) : outcome (list pgroup) :=
  match l, i with
  | [], _ => UB
  | x :: r, O => let! y := f x in Ok (y :: r)
  | x :: r, S j => let! r' := upd_o j f r in Ok (x :: r')
  end.
(** 367-433: map_string_ids *)
Definition map_string_ids (t : stringtable) (m : Z) (w : pwriter) : outcome (Z * list pgroup) :=
  let! (m1, gs1) :=
    match w_pn w with
    | None => Ok (m, w_groups w)
    | Some i =>
        match nth_error (w_groups w) i with
        | None => UB
        | Some g =>
            let! ns := map_all (map_pnode t) (g_nodes g) in
            let! (m', d) := match g_dense g with
                            | None => Ok (m, None)
                            | Some d => let! (m', d') := map_dense t m d in Ok (m', Some d')
                            end in
            let! gs := upd_o i (fun _ => Ok (mkPG ns d (g_ways g) (g_rels g))) (w_groups w) in
            Ok (m', gs)
        end
    end in
  let! gs2 :=
    match w_pw w with
    | None => Ok gs1
    | Some i => upd_o i (fun g => let! ws := map_all (map_pway t) (g_ways g) in Ok (mkPG (g_nodes g) (g_dense g) ws (g_rels g))) gs1
    end in
  let! gs3 :=
    match w_pr w with
    | None => Ok gs2
    | Some i => upd_o i (fun g => let! rs := map_all (map_prel t) (g_rels g) in Ok (mkPG (g_nodes g) (g_dense g) (g_ways g) rs)) gs2
    end in
  Ok (m1, gs3).
(** 526-567: store_primitive_block: the block as it is serialized, then everything is reset *)
Definition final_block (c : pcfg) (w : pwriter) : outcome pblock :=
  let! (t, tbl) := store_stringtable (mm_order K) (w_st w) in
  let! (_, gs) := map_string_ids t (w_dsid w) w in
  Ok (mkPB tbl gs (to_i32 (cf_gran c)) 0 0 (to_i32 (cf_dgran c))).
Definition store_primitive_block (c : pcfg) (w : pwriter) : outcome pwriter :=
  let! b := final_block c w in
  let! f := store_blob (cf_compress c) "OSMData" (ser_pb K b) (w_fd w) in
  Ok (mkPWr [] None None None 0 0 (st_clear (w_st w)) (delta_clear (w_did w)) (delta_clear (w_dlat w)) (delta_clear (w_dlon w))
            (delta_clear (w_dts w)) (delta_clear (w_dcs w)) (delta_clear (w_duid w)) (delta_clear (w_dsid w)) f).
(** 577-590: check_block_contents_counter *)
Definition max_block_contents : Z := 8000.
Definition buffer_fill_percent : Z := 95.
Definition check_block_contents_counter (c : pcfg) (w : pwriter) : outcome pwriter :=
  let! w1 :=
    if w_contents w >=? max_block_contents then store_primitive_block c w
    else if w_size w >? max_uncompressed_blob_size * buffer_fill_percent / 100 then store_primitive_block c w
    else Ok w in
  Ok (with_count (to_u16 (w_contents w1 + 1)) w1).
(** 905-972: node, way, relation *)
Definition pbf_object (c : pcfg) (o : object) (w : pwriter) : outcome (pwriter * option exn) :=
  let! w1 := check_block_contents_counter c w in
  let w2 := need_group (obj_type o) w1 in
  match o with
  | ONode n => let! w3 := if cf_dense c then write_dense_node c n w2 else write_node c n w2 in Ok (w3, None)
  | OWay y => let! w3 := write_way c y w2 in Ok (w3, None)
  | ORel y => write_relation c y w2
  end.
(** 865-896: init.  The double is converted to the int64 field. *)
Definition header_of (c : pcfg) (m : meta) : outcome header_block :=
  let fs := ["OsmSchema-V0.6"%string] ++ (if cf_dense c then ["DenseNodes"%string] else []) ++
            (if ft_eqb (cf_type c) FtHistory then ["HistoricalInformation"%string] else []) in
  let b := mt_bounds m in
  let res x := d_to_i64 (d_mul x (d_of_Z lonlat_resolution)) in
  let! bb :=
    if bounds_defined b then
      let! l := res (pos_lon (bottom_left b)) in
      let! bo := res (pos_lat (bottom_left b)) in
      let! r := res (pos_lon (top_right b)) in
      let! t := res (pos_lat (top_right b)) in
      Ok (Some (mkBB l r t bo))
    else Ok None in
  Ok (mkHB bb fs (Some (cf_generator c))).
Definition pbf_init (c : pcfg) (m : meta) (w : pwriter) : outcome pwriter :=
  let! h := header_of c m in
  let! f := store_blob (cf_compress c) "OSMHeader" (ser_hb K h) (w_fd w) in
  Ok (with_fd f w).
(** 978-989: final; closing the file is in Model/OsmFile.v *)
Definition pbf_final (c : pcfg) (w : pwriter) : outcome pwriter :=
  if w_contents w >? 0 then store_primitive_block c w else Ok w.

(** Writing a file: init, the objects, final.  An exception ends the writing. *)
Fixpoint pbf_objects (c : pcfg) (os : list object) (w : pwriter) : outcome pwriter :=
  match os with
  | [] => Ok w
  | o :: r =>
      let! (w', e) := pbf_object c o w in
      match e with None => pbf_objects c r w' | Some e => Throw e end
  end.
Definition write_pbf (c : pcfg) (m : meta) (os : list object) (sched : list wres) : outcome bytes :=
  let! w1 := pbf_init c m (pwriter_new (mkOfd [] sched)) in
  let! w2 := pbf_objects c os w1 in
  let! w3 := pbf_final c w2 in
  Ok (fd_out (w_fd w3)).
End Pbf.

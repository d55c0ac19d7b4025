(** Specifications for PBF files. *)
From Verif Require Import Base.Prelude Model.Osm Model.Utils Model.OsmFile Model.Handler Model.Pbf Spec.UtilsSpec Spec.TagsSpec Spec.HandlerSpec.

(* ---- what is assumed of the libraries ---- *)
(** messages whose numbers fit the fields of the .proto files *)
Definition info_fits (i : pinfo) : Prop :=
  in_i32 (i_version i) /\ in_i64 (i_timestamp i) /\ in_i64 (i_changeset i) /\ in_i32 (i_uid i) /\ in_u32 (i_user_sid i).
Definition common_fits (c : pcommon) : Prop :=
  in_i64 (c_id c) /\ Forall in_u32 (c_keys c) /\ Forall in_u32 (c_vals c) /\
  match c_info c with Some i => info_fits i | None => True end.
Definition pnode_fits (p : pnode) : Prop := common_fits (pn_common p) /\ in_i64 (pn_lat p) /\ in_i64 (pn_lon p).
Definition pway_fits (p : pway) : Prop := common_fits (pw_common p) /\ Forall in_i64 (pw_refs p).
Definition prel_fits (p : prelation) : Prop :=
  common_fits (pr_common p) /\ Forall in_i32 (pr_roles p) /\ Forall in_i64 (pr_memids p) /\ Forall (fun t => 0 <= t <= 2) (pr_types p).
Definition dinfo_fits (i : pdenseinfo) : Prop :=
  Forall in_i32 (di_version i) /\ Forall in_i64 (di_timestamp i) /\ Forall in_i64 (di_changeset i) /\
  Forall in_i32 (di_uid i) /\ Forall in_i32 (di_user_sid i).
Definition dense_fits (d : pdense) : Prop :=
  Forall in_i64 (dn_id d) /\ Forall in_i64 (dn_lat d) /\ Forall in_i64 (dn_lon d) /\ Forall in_i32 (dn_kv d) /\
  match dn_info d with Some i => dinfo_fits i | None => True end.
Definition group_fits (g : pgroup) : Prop :=
  Forall pnode_fits (g_nodes g) /\ Forall pway_fits (g_ways g) /\ Forall prel_fits (g_rels g) /\
  match g_dense g with Some d => dense_fits d | None => True end.
Definition block_fits (b : pblock) : Prop :=
  Forall group_fits (pb_groups b) /\ in_i32 (pb_granularity b) /\ in_i32 (pb_date_granularity b) /\
  in_i64 (pb_lat_offset b) /\ in_i64 (pb_lon_offset b).
Definition header_fits (h : header_block) : Prop :=
  match hb_bbox h with
  | Some b => in_i64 (bb_left b) /\ in_i64 (bb_right b) /\ in_i64 (bb_top b) /\ in_i64 (bb_bottom b)
  | None => True
  end.
Definition limit : Z := 33554432.
(** Protobuf reads back what it writes (messages of up to 32 MB), blob headers with a short type
    are small, raw_size is an int32, zlib decompresses what it compresses, and the multimap is ordered by count. *)
Record codec_ok (K : codec) : Prop := {
  ok_bh : forall t n, in_i32 n -> blen (ser_bh K (mkBH t n)) <= 65536 -> par_bh K (ser_bh K (mkBH t n)) = Some (mkBH t n);
  ok_bh_small : forall t n, slen t <= 1000 -> in_i32 n -> blen (ser_bh K (mkBH t n)) <= 65536;
  ok_blob : forall b, in_i32 (b_raw_size b) -> blen (ser_blob K b) <= limit -> par_blob K (ser_blob K b) = Some b;
  ok_raw_size : forall d b, par_blob K d = Some b -> in_i32 (b_raw_size b);
  ok_hb : forall h, header_fits h -> blen (ser_hb K h) <= limit -> par_hb K (ser_hb K h) = Some h;
  ok_pb : forall b, block_fits b -> blen (ser_pb K b) <= limit -> par_pb K (ser_pb K b) = Some b;
  ok_zlib : forall d n, blen d <= n -> zinflate K (zdeflate K d) n = Some d;
  ok_order : by_count_desc (mm_order K) }.

(* ---- the file as a sequence of blobs ---- *)
Definition be_value (b : bytes) : Z := fold_left (fun v c => v * 256 + Z.of_N (N_of_ascii c)) b 0.
(** the contents of a blob message *)
Definition holds (K : codec) (b : blob) (d : bytes) : Prop :=
  b_raw b = Some d \/
  (b_raw b = None /\ exists z, b_zlib b = Some z /\ zinflate K z (blen d) = Some d /\ b_raw_size b = blen d /\ blen d <= limit).
(** The file format: four bytes length, blob header, blob; all within the limits of the format. *)
Definition blob_bytes (K : codec) (x : string * bytes) (f : bytes) : Prop :=
  exists n head body b, f = n ++ head ++ body /\ List.length n = 4%nat /\
    be_value n = blen head /\ blen head <= 65536 /\ blen body <= limit /\
    par_bh K head = Some (mkBH (fst x) (blen body)) /\ par_blob K body = Some b /\ holds K b (snd x).
(** contents small enough for a blob *)
Definition small (K : codec) (compress : bool) (d : bytes) : Prop :=
  blen d <= limit /\
  if compress then blen (zdeflate K d) <= limit /\ blen (ser_blob K (mkBlob None (blen d) (Some (zdeflate K d)) None)) <= limit
  else blen (ser_blob K (mkBlob (Some d) (blen d) None None)) <= limit.
(** no read fails; every read may return as few bytes as it likes *)
Definition reads_ok (s : list rres) : Prop := ~ In RErr s.
Definition writes_complete (s : list wres) : Prop := Forall (fun w => w = WAll) s.
(** storing several blobs one after the other *)
Fixpoint store_all (K : codec) (compress : bool) (bs : list (string * bytes)) (f : ofd) : outcome ofd :=
  match bs with
  | [] => Ok f
  | (t, d) :: r => let! f1 := store_blob K compress t d f in store_all K compress r f1
  end.

(* ---- objects ---- *)
(** objects as the C++ types and the setters allow them; timestamps up to the year 285 million *)
Definition user_ok (s : string) : Prop := no_nul s /\ slen s <= 1021.
Definition attrs_ok (a : attrs) : Prop :=
  in_i64 (o_id a) /\ in_u32 (o_version a) /\ in_i32 (o_changeset a) /\ Z.abs (o_timestamp a) <= 9007199254740992 /\
  in_i32 (o_uid a) /\ user_ok (o_user a) /\ Forall c_tag (o_tags a).
Definition member_ok (m : member) : Prop := in_i64 (m_ref m) /\ user_ok (m_role m).
Definition object_ok (o : object) : Prop :=
  attrs_ok (obj_attrs o) /\
  match o with
  | ONode n => in_i32 (px (n_pos n)) /\ in_i32 (py (n_pos n))
  | OWay w => Forall (fun n => in_i64 (wn_ref n)) (w_nodes w)
  | ORel r => Forall member_ok (r_members r)
  end.
(** the texts of an object *)
Definition tag_texts (ts : tag_list) : list string := flat_map (fun t => [tkey t; tvalue t]) ts.
Definition texts (o : object) : list string :=
  tag_texts (o_tags (obj_attrs o)) ++ [o_user (obj_attrs o)] ++
  match o with ORel r => map m_role (r_members r) | _ => [] end.
(** any 8000 objects in a row use at most 65535 different texts *)
Definition few_texts (os : list object) : Prop :=
  forall a b c, os = a ++ b ++ c -> Z.of_nat (List.length b) <= 8000 ->
    Z.of_nat (distinct_strings (flat_map texts b)) <= 65535.
(** what the format keeps of an object; [fc] and [ft] are what happens to coordinates and times *)
Definition kept_attrs (c : pcfg) (ft : Z -> Z) (a : attrs) : attrs :=
  if cf_meta c then
    mkAttrs (o_id a) (o_version a) (o_changeset a) (ft (o_timestamp a)) 0 (o_uid a) (o_user a)
            (if ft_multiple (cf_type c) then o_visible a else true) (o_tags a)
  else mkAttrs (o_id a) 0 0 0 0 (-1) ""%string true (o_tags a).
Definition kept_with (c : pcfg) (fc ft : Z -> Z) (o : object) : object :=
  match o with
  | ONode n => ONode (mkNode (kept_attrs c ft (n_attrs n)) (mkPos (fc (px (n_pos n))) (fc (py (n_pos n)))))
  | OWay w => OWay (mkWay (kept_attrs c ft (w_attrs w)) (map (fun n => mkWN (wn_ref n) undef_pos) (w_nodes w)))
  | ORel r => ORel (mkRelation (kept_attrs c ft (r_attrs r)) (r_members r))
  end.
Definition kept (c : pcfg) (o : object) : object := kept_with c (fun x => x) (fun x => x) o.
(** objects by type, the types in the order of their first objects *)
Fixpoint kinds (seen : list otype) (l : list object) : list otype :=
  match l with
  | [] => []
  | o :: r => if existsb (otype_eqb (obj_type o)) seen then kinds seen r else obj_type o :: kinds (obj_type o :: seen) r
  end.
Definition by_kind (l : list object) : list (otype * list object) := map (fun t => (t, ofilter t l)) (kinds [] l).
(** the objects of one type among those handed to the handler *)
Definition only (t : otype) (gs : list (otype * list object)) : list object := flat_map snd (filter (fun g => otype_eqb (fst g) t) gs).
(** nodes, then ways, then relations *)
Definition type_sorted (os : list object) : Prop :=
  exists ns ws rs, os = ns ++ ws ++ rs /\
    (forall o, In o ns -> obj_type o = NODE) /\ (forall o, In o ws -> obj_type o = WAY) /\ (forall o, In o rs -> obj_type o = RELATION).
Definition known_members (o : object) : Prop :=
  match o with ORel r => Forall (fun m => m_type m = "n"%char \/ m_type m = "w"%char \/ m_type m = "r"%char) (r_members r) | _ => True end.
(** ids and references whose differences are 64 bit numbers *)
Definition mid (z : Z) : Prop := -4611686018427387904 < z < 4611686018427387904.
Definition near_ids (o : object) : Prop :=
  mid (o_id (obj_attrs o)) /\
  match o with
  | ONode _ => True
  | OWay w => Forall (fun n => mid (wn_ref n)) (w_nodes w)
  | ORel r => Forall (fun m => mid (m_ref m)) (r_members r)
  end.
(** the default granularities *)
Definition default_gran (c : pcfg) : Prop := cf_gran c = 100 /\ cf_dgran c = 1000.

(** the layout of a written file: the header, then the blocks *)
Definition layout (K : codec) (c : pcfg) (h : bytes) (bs : list bytes) (f : bytes) : Prop :=
  store_all K (cf_compress c) (("OSMHeader"%string, h) :: map (fun b => ("OSMData"%string, b)) bs) (mkOfd [] []) = Ok (mkOfd f []).
(** every blob of the file is within the limits of the format *)
Definition readable (K : codec) (c : pcfg) (h : bytes) (bs : list bytes) : Prop :=
  small K (cf_compress c) h /\ Forall (small K (cf_compress c)) bs.
(** the features a header has to announce *)
Definition announced (c : pcfg) (f : string) : Prop :=
  f = "OsmSchema-V0.6"%string \/ (f = "DenseNodes"%string /\ cf_dense c = true) \/ (f = "HistoricalInformation"%string /\ cf_type c = FtHistory).
(** blocks: pieces of the objects written, none empty, none with more than 8000 objects *)
Definition pieces (os : list object) (chunks : list (list object)) : Prop :=
  List.concat chunks = os /\ Forall (fun ch => ch <> [] /\ Z.of_nat (List.length ch) <= 8000) chunks.
(** files which differ only in how nodes are encoded and whether blobs are compressed *)
Definition same_contents (c1 c2 : pcfg) : Prop :=
  cf_meta c1 = cf_meta c2 /\ cf_type c1 = cf_type c2.

(* ---- granularity ---- *)
Definition gran_ok (g : Z) : Prop := 1 <= g <= 2147483647.
(** coordinates in units of 10^-7 degrees, granularity in nanodegrees: half the granularity (with
    0.2 percent tolerance for rounding) plus less than one unit *)
Definition coord_near (g x y : Z) : Prop :=
  1000 * Z.abs (100 * y - 100 * x) <= 501 * g + 99000 /\
  (g mod 100 = 0 -> 1000 * Z.abs (100 * y - 100 * x) <= 501 * g) /\
  ((100 * x) mod g = 0 -> y = x).
(** times in seconds, granularity in milliseconds *)
Definition time_near (dg t u : Z) : Prop :=
  dg mod 1000 = 0 -> 10000 * Z.abs (u - t) <= 6 * dg /\ ((1000 * t) mod dg = 0 -> u = t).

(* ---- the header ---- *)
Definition known_feature (f : string) : Prop :=
  f = "OsmSchema-V0.6"%string \/ f = "DenseNodes"%string \/ f = "HistoricalInformation"%string.
(** what the type of the file asks of the header *)
Definition type_accepted (ty : ftype) (fs : list string) : Prop :=
  match ty with
  | FtOSM => ~ In "HistoricalInformation"%string fs
  | FtHistory => In "HistoricalInformation"%string fs
  | FtChange => True
  end.
(** one unit of the last place towards zero at most *)
Definition almost (x y : Z) : Prop := y = x \/ (0 < x /\ y = x - 1) \/ (x < 0 /\ y = x + 1).
Definition pos_almost (p q : position) : Prop := almost (px p) (px q) /\ almost (py p) (py q).
Definition bounds_ok (b : bounds) : Prop :=
  let ok p := in_i32 (px p) /\ in_i32 (py p) /\ px p <> invalid_coord /\ py p <> invalid_coord in
  ok (bottom_left b) /\ ok (top_right b) /\
  px (bottom_left b) <= px (top_right b) /\ py (bottom_left b) <= py (top_right b).

(** the writer after init and some objects *)
Definition written_so_far (K : codec) (c : pcfg) (m : meta) (os : list object) (sched : list wres) (w : pwriter) : Prop :=
  exists w1, pbf_init K c m (pwriter_new (mkOfd [] sched)) = Ok w1 /\ pbf_objects K c os w1 = Ok w.

(* ---- blocks of any origin ---- *)
(** indices are in the string table, parallel lists have the same length, numbers fit 64 bits *)
Definition sid_ok (b : pblock) (i : Z) : Prop := 0 <= i < Z.of_nat (List.length (pb_strings b)).
Definition seconds (b : pblock) : Z := Z.quot (pb_date_granularity b) 1000.
Definition info_wf (b : pblock) (i : pinfo) : Prop := sid_ok b (i_user_sid i) /\ in_i64 (i_timestamp i * seconds b).
Definition common_wf (b : pblock) (c : pcommon) : Prop :=
  List.length (c_keys c) = List.length (c_vals c) /\ Forall (sid_ok b) (c_keys c) /\ Forall (sid_ok b) (c_vals c) /\
  match c_info c with Some i => info_wf b i | None => True end.
Definition coord_wf (b : pblock) (off v : Z) : Prop := in_i64 (v * pb_granularity b) /\ in_i64 (v * pb_granularity b + off).
Definition node_wf (b : pblock) (n : pnode) : Prop :=
  common_wf b (pn_common n) /\ coord_wf b (pb_lon_offset b) (pn_lon n) /\ coord_wf b (pb_lat_offset b) (pn_lat n).
Definition rel_wf (b : pblock) (r : prelation) : Prop :=
  common_wf b (pr_common r) /\ List.length (pr_memids r) = List.length (pr_types r) /\ List.length (pr_roles r) = List.length (pr_types r) /\
  Forall (sid_ok b) (pr_roles r).
(** delta encoded values *)
Fixpoint sums (a : Z) (l : list Z) : list Z := match l with [] => [] | x :: r => (a + x) :: sums (a + x) r end.
(** tags of dense nodes: pairs of indices, a zero after each node *)
Definition kv_wf (b : pblock) (kv : list Z) : Prop :=
  exists tags : list (list (Z * Z)), kv = flat_map (fun ps => flat_map (fun p => [fst p; snd p]) ps ++ [0]) tags /\
    Forall (Forall (fun p => fst p <> 0 /\ sid_ok b (fst p) /\ sid_ok b (snd p))) tags.
Definition dinfo_wf (b : pblock) (n : nat) (i : pdenseinfo) : Prop :=
  List.length (di_version i) = n /\ List.length (di_timestamp i) = n /\ List.length (di_changeset i) = n /\
  List.length (di_uid i) = n /\ List.length (di_user_sid i) = n /\ (di_visible i = [] \/ List.length (di_visible i) = n) /\
  Forall (fun t => in_i64 t /\ in_i64 (t * seconds b)) (sums 0 (di_timestamp i)) /\ Forall in_i64 (sums 0 (di_changeset i)) /\
  Forall in_i64 (sums 0 (di_uid i)) /\ Forall (fun s => in_i32 s /\ sid_ok b s) (sums 0 (di_user_sid i)).
Definition dense_wf (b : pblock) (d : pdense) : Prop :=
  let n := List.length (dn_id d) in
  List.length (dn_lat d) = n /\ List.length (dn_lon d) = n /\ Forall in_i64 (sums 0 (dn_id d)) /\
  Forall (fun v => in_i64 v /\ coord_wf b (pb_lat_offset b) v) (sums 0 (dn_lat d)) /\
  Forall (fun v => in_i64 v /\ coord_wf b (pb_lon_offset b) v) (sums 0 (dn_lon d)) /\ kv_wf b (dn_kv d) /\
  match dn_info d with Some i => dinfo_wf b n i | None => True end.
Definition group_wf (b : pblock) (g : pgroup) : Prop :=
  match g_dense g with Some d => dense_wf b d | None => True end /\
  Forall (node_wf b) (g_nodes g) /\ Forall (fun w => common_wf b (pw_common w)) (g_ways g) /\ Forall (rel_wf b) (g_rels g).
Definition block_wf (b : pblock) : Prop := Forall (group_wf b) (pb_groups b).

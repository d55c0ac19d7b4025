(** Shapefile output.  Models /repo/include/osmium/export/shapefile.hpp 38-428.
    Shapelib and the file system are outside the model: whether their calls succeed is an oracle;
    the files with their fields and shapes in order are kept as a ghost state.  Of open() only the
    failure of SHPCreate is modelled; .prj, .cpg and the attributes of shapes are left out. *)
From Verif Require Import Base.Prelude Model.Osm Model.Geom.

(** shapefile.hpp 42-59: limits and sizes *)
Definition max_dbf_field_name_length : Z := 11.
Definition max_dbf_field_length : Z := 255.
Definition max_dbf_fields : Z := 2047.
Definition max_file_size : Z := 2147483647.
Definition size_shapefile_header : Z := 100.
Definition size_dbf_header : Z := 33.
Definition size_dbf_field_header : Z := 32.

(** DBFFieldType of shapelib *)
Inductive ftype := FTString | FTInteger | FTDouble | FTLogical.
(** shapefile.hpp 63-102: Field *)
Record field := mkField { f_name : string; f_type : ftype; f_width : Z; f_decimals : Z }.
(** shapefile.hpp 67-77: the constructor *)
Definition field_new (name : string) (type : ftype) (width decimals : Z) : outcome field :=
  if String.eqb name "" || (slen name >? max_dbf_field_name_length) then Throw EInvalidArgument
  else if width >? max_dbf_field_length then Throw EInvalidArgument
  else Ok (mkField name type width decimals).

(** nSHPType, nParts and nVertices of a SHPObject *)
Inductive shptype :=
| SHPT_NULL | SHPT_POINT | SHPT_MULTIPOINT | SHPT_ARC | SHPT_POLYGON
| SHPT_POINTM | SHPT_MULTIPOINTM | SHPT_ARCM | SHPT_POLYGONM
| SHPT_POINTZ | SHPT_MULTIPOINTZ | SHPT_ARCZ | SHPT_POLYGONZ | SHPT_MULTIPATCH | SHPT_UNKNOWN.
Definition shptype_eq (a b : shptype) : {a = b} + {a <> b}.
Proof. decide equality. Defined.
Record shp := mkShp { s_type : shptype; s_parts : Z; s_vertices : Z; s_tag : Z }.
(** int times a literal, int overflow is UB *)
Definition imul (x k : Z) (f : Z -> Z) : outcome Z := if in_i32b (x * k) then Ok (f (to_u64 (x * k))) else UB.
(** shapefile.hpp 385-428: length_on_disk.  nVertices * 2 etc. is int, the rest size_t. *)
Definition length_on_disk (s : shp) : outcome Z :=
  let hdr := 8 + 4 in let box := 32 in let range := 16 in let coord := 8 in
  let np := 4 in let nparts := 4 in let index := 4 in
  let pi := to_u64 (s_parts s) * index in
  let nv := s_vertices s in
  match s_type s with
  | SHPT_NULL => Ok hdr
  | SHPT_POINT => Ok (hdr + 2 * coord)
  | SHPT_MULTIPOINT => imul nv 2 (fun v => to_u64 (hdr + box + np + v * coord))
  | SHPT_ARC | SHPT_POLYGON => imul nv 2 (fun v => to_u64 (hdr + box + nparts + pi + np + v * coord))
  | SHPT_POINTM => Ok (hdr + 3 * coord)
  | SHPT_MULTIPOINTM => imul nv 3 (fun v => to_u64 (hdr + box + range + np + v * coord))
  | SHPT_ARCM | SHPT_POLYGONM => imul nv 3 (fun v => to_u64 (hdr + box + range + nparts + pi + np + v * coord))
  | SHPT_POINTZ => Ok (hdr + 4 * coord)
  | SHPT_MULTIPOINTZ => imul nv 4 (fun v => to_u64 (hdr + box + 2 * range + np + v * coord))
  | SHPT_ARCZ | SHPT_POLYGONZ => imul nv 4 (fun v => to_u64 (hdr + box + 2 * range + nparts + pi + np + v * coord))
  | SHPT_MULTIPATCH =>
      let! p2 := imul (s_parts s) 2 (fun p => p * index) in
      imul nv 4 (fun v => to_u64 (hdr + box + 2 * range + nparts + p2 + np + v * coord))
  | SHPT_UNKNOWN => Throw ERuntime
  end.

(** ghost: a file that was written *)
Record sfile := mkSF { sf_seq : Z; sf_fields : list field; sf_shapes : list shp }.
(** shapefile.hpp 307-333: the members; [done]: closed files, [cur]: the open one, None: the handle
    is null *)
Record sstate := mkSS {
  ss_type : shptype; ss_fields : list field; ss_seq : Z; ss_reclen : Z; ss_shpb : Z; ss_dbfb : Z;
  ss_done : list sfile; ss_cur : option sfile }.

Section Shapefile.
  (** SHPCreate succeeds for the file with this sequence number *)
  Variable opens : Z -> bool.

  (** shapefile.hpp 339-378: open.  The result is the state also if it throws. *)
  Definition open (s : sstate) : sstate * bool :=
    if opens (ss_seq s) then
      (mkSS (ss_type s) (ss_fields s) (ss_seq s) (ss_reclen s) size_shapefile_header
         (to_u32 (size_dbf_header + size_dbf_field_header * Z.of_nat (List.length (ss_fields s))))
         (ss_done s) (Some (mkSF (ss_seq s) (ss_fields s) [])), true)
    else (mkSS (ss_type s) (ss_fields s) (ss_seq s) (ss_reclen s) (ss_shpb s) (ss_dbfb s) (ss_done s) None, false).
  (** shapefile.hpp 291-303: the constructor *)
  Definition shapefile_new (type : shptype) : outcome sstate :=
    let (s, ok) := open (mkSS type [] 0 1 0 0 [] None) in if ok then Ok s else Throw ERuntime.
  (** shapefile.hpp 110-119: close *)
  Definition close (s : sstate) : sstate :=
    mkSS (ss_type s) (ss_fields s) (ss_seq s) (ss_reclen s) (ss_shpb s) (ss_dbfb s)
      (ss_done s ++ match ss_cur s with Some f => [f] | None => [] end) None.

  (** shapefile.hpp 124-136: add_field; [ok]: DBFAddField succeeds.  With a null handle it fails. *)
  Definition add_field (s : sstate) (f : field) (ok : bool) : sstate * outcome unit :=
    if Z.of_nat (List.length (ss_fields s)) <? max_dbf_fields then
      match ss_cur s with
      | Some c =>
          if ok then
            (mkSS (ss_type s) (ss_fields s ++ [f]) (ss_seq s) (to_u32 (ss_reclen s + f_width f)) (ss_shpb s)
               (to_u32 (ss_dbfb s + size_dbf_field_header)) (ss_done s)
               (Some (mkSF (sf_seq c) (sf_fields c ++ [f]) (sf_shapes c))), Ok tt)
          else (s, Throw ERuntime)
      | None => (s, UB)
      end
    else (s, Throw EOutOfRange).
  (** shapefile.hpp 141-148: add_field with the type of shapelib *)
  Definition add_field_type (s : sstate) (name : string) (t : ftype) (width decimals : Z) (ok : bool) : sstate * outcome unit :=
    match field_new name t width decimals with
    | Ok f => add_field s f ok
    | Throw e => (s, Throw e)
    | _ => (s, UB)
    end.
  (** shapefile.hpp 153-177: add_field with a type name *)
  Definition add_field_name (s : sstate) (name type : string) (width decimals : Z) (ok : bool) : sstate * outcome unit :=
    if String.eqb type "string" then add_field_type s name FTString width 0 ok
    else if String.eqb type "integer" then add_field_type s name FTInteger width 0 ok
    else if String.eqb type "double" then add_field_type s name FTDouble width decimals ok
    else if String.eqb type "bool" then add_field_type s name FTLogical 1 0 ok
    else (s, Throw ERuntime).

  (** the counters after a shape *)
  Definition count (s : sstate) (len : Z) : sstate :=
    mkSS (ss_type s) (ss_fields s) (ss_seq s) (ss_reclen s) (to_u32 (ss_shpb s + len)) (to_u32 (ss_dbfb s + ss_reclen s))
      (ss_done s) (ss_cur s).
  (** 212-216: SHPWriteObject; [ok]: it succeeds *)
  Definition write (s : sstate) (o : shp) (ok : bool) : sstate * outcome unit :=
    match ss_cur s with
    | None => (s, UB)
    | Some c =>
        if ok then
          (mkSS (ss_type s) (ss_fields s) (ss_seq s) (ss_reclen s) (ss_shpb s) (ss_dbfb s) (ss_done s)
             (Some (mkSF (sf_seq c) (sf_fields c) (sf_shapes c ++ [o]))), Ok tt)
        else (s, Throw ERuntime)
    end.
  (** shapefile.hpp 198-218: add_geometry; [o] None: a null pointer *)
  Definition add_geometry (s : sstate) (o : option shp) (ok : bool) : sstate * outcome unit :=
    match o with
    | None => (s, Throw EIllegalGeometry)
    | Some o =>
        match ss_cur s with
        | None => (s, UB)
        | Some _ =>
            if shptype_eq (s_type o) (ss_type s) then
              match length_on_disk o with
              | Ok len =>
                  let s1 := count s len in
                  if (ss_dbfb s1 >? max_file_size) || (ss_shpb s1 >? max_file_size) then
                    let s2 := close s1 in
                    let s3 := mkSS (ss_type s2) (ss_fields s2) (to_u32 (ss_seq s2 + 1)) (ss_reclen s2) (ss_shpb s2) (ss_dbfb s2) (ss_done s2) (ss_cur s2) in
                    let (s4, opened) := open s3 in
                    if opened then write (count s4 len) o ok else (s4, Throw ERuntime)
                  else write s1 o ok
              | Throw e => (s, Throw e)
              | UB => (s, UB)
              | AssertFail => (s, AssertFail)
              end
            else (s, Throw EIllegalGeometry)
        end
    end.

  (** a sequence of calls; the caller catches exceptions and goes on *)
  Inductive sop :=
  | OField (name type : string) (width decimals : Z) (ok : bool)
  | OShape (o : option shp) (ok : bool).
  Definition sstep (s : sstate) (x : sop) : sstate * outcome unit :=
    match x with
    | OField n t w d ok => add_field_name s n t w d ok
    | OShape o ok => add_geometry s o ok
    end.
  Fixpoint srun (s : sstate) (xs : list sop) : sstate * list (outcome unit) :=
    match xs with
    | [] => (s, [])
    | x :: r => let (s1, o) := sstep s x in let (s2, os) := srun s1 r in (s2, o :: os)
    end.
  (** all files, the destructor closes the last *)
  Definition all_files (s : sstate) : list sfile := ss_done (close s).
End Shapefile.

(* ---- truncated strings ---- *)
(** C string in a buffer: up to the first zero *)
Fixpoint cstr (l : list Z) : list Z :=
  match l with [] => [] | b :: r => if b =? 0 then [] else b :: cstr r end.
(** strncpy: at most n bytes, padded with zeros *)
Fixpoint strncpy (n : nat) (v : list Z) : list Z :=
  match n with
  | O => []
  | S m => match v with [] => 0 :: strncpy m [] | b :: r => b :: strncpy m r end
  end.
Fixpoint put (l : list Z) (i : nat) (x : Z) : list Z :=
  match l, i with
  | [], _ => []
  | _ :: r, O => x :: r
  | y :: r, S k => y :: put r k x
  end.
(** shapefile.hpp 263-279: add_attribute_with_truncate for a field of this width: the string given
    to add_attribute.  [value]: the bytes before the zero.  char is signed in the code, which makes
    no difference for the bits tested.  Accesses outside the buffer are UB. *)
Definition truncate (width : Z) (value : list Z) : outcome (list Z) :=
  if (width <? 0) || (width >? max_dbf_field_length) then UB
  else
    let n := Z.to_nat width in
    let dest := strncpy n value ++ [0] in
    match n with
    | O => UB
    | S i =>
        let at_ k := nth k dest 0 in
        if negb (Z.land (at_ i) 128 =? 0) then
          if negb (Z.land (at_ i) 64 =? 0) then Ok (cstr (put dest i 0))
          else match i with
               | O => UB
               | S i1 =>
                   if Z.land (at_ i1) 224 =? 224 then Ok (cstr (put dest i1 0))
                   else match i1 with
                        | O => UB
                        | S i2 => if Z.land (at_ i2) 240 =? 240 then Ok (cstr (put dest i2 0)) else Ok (cstr dest)
                        end
               end
        else Ok (cstr dest)
    end.

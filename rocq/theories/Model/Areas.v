(** The example programs that assemble multipolygons: examples/osmium_mpdump.cpp and examples/osmium_toogr2.cpp, on
    top of Model/Assembler.v and Model/Handler.v (CoordinatesForWays).
    The library is built without OSMIUM_WITH_DEBUG, so that set_debug_level() changes nothing.  The two lines
    about the passes, "Used memory" (toogr2) and all that goes to std::cerr are left out.
    The geometry of an area is made by GEOS: [geom] says for the n-th area what comes of it. *)
From Verif Require Import Base.Prelude Base.Decimal Model.Osm Model.Geom Model.Area Model.Handler Model.Assembler Model.Convert Model.Debug Model.Members Model.Osmjs Model.Ogr.

(* ---- two passes ---- *)
Section Two.
  Context {S P N : Type}.
  Variable pset : Z -> position -> P -> outcome P.
  Variable pget : Z -> P -> outcome position.
  Variable nset : Z -> position -> N -> outcome N.
  Variable nget : Z -> N -> outcome position.
  (** builder.build() with repair; std::sort of the member infos *)
  Variable build : relation -> list (option object) -> outcome (list attrs).
  Variable srt : list minfo -> list minfo.
  (** the area() function of the handler *)
  Variable on_area : attrs -> S -> S * option halt.
  (** what the handler of the program makes of callbacks; the others are those of Handler::Base *)
  Fixpoint give_areas (cs : list callback) (s : S) : S * option halt :=
    match cs with
    | [] => (s, None)
    | CArea a :: r => match on_area a s with (s', None) => give_areas r s' | x => x end
    | _ :: r => give_areas r s
    end.
  (** osmium_mpdump.cpp 77-78, osmium_toogr2.cpp 126-127: Sequence of CoordinatesForWays and the second pass.  All areas of a
      callback are made before the first is given to the handler: nothing depends on the order. *)
  Definition area_pass2 (c : callback) (st : (P * N) * asm * S) : ((P * N) * asm * S) * option halt :=
    let '(pn, a, s) := st in
    let go c pn := match mp_pass2 build c a with
                   | Ok (a', cs) => let (s', h) := give_areas cs s in ((pn, a', s'), h)
                   | x => (st, halt_of x)
                   end in
    match c with
    | CObj o =>
        match cfw_step pset pget nset nget o pn with
        | Ok (o', pn') => go (CObj o') pn'
        | x => (st, halt_of x)
        end
    | _ => go c pn
    end.
  (** osmium_mpdump.cpp 80-84, osmium_toogr2.cpp 129-134: the two passes; both read the same file *)
  Definition two_passes (p0 : P) (n0 : N) (r : reading) (s : S) : S * option halt :=
    match input_read (pass1 mp_select mp_keep srt) r (asm_new mp_want) with
    | (_, Some h, _) => (s, Some h)
    | (a, None, _) => let '(_, _, s', h) := fst (input_read area_pass2 r ((p0, n0), a, s)) in (s', h)
    end.
End Two.

(* ---- osmium_mpdump.cpp ---- *)
Local Open Scope string_scope.
(** osmium_mpdump.cpp 34-46: the text for an area with this WKT *)
Definition dump_area (a : attrs) (wkt : string) : string :=
  "Area " ++ (if area_from_way (o_id a) then "from way" else "from relation")
  ++ " id=" ++ print_Z (o_id a) ++ " (orig_id=" ++ print_Z (area_orig_id (o_id a)) ++ ")"
  ++ " version=" ++ print_Z (o_version a) ++ " timestamp=" ++ print_Z (o_timestamp a)
  ++ " uid=" ++ print_Z (o_uid a) ++ " user=" ++ c_text (o_user a)
  ++ nl ++ "  " ++ wkt ++ nl ++ dump_tags "  " (o_tags a) ++ nl.
(** osmium_mpdump.cpp 31-47: area(): the MultiPolygon, which may throw, comes first.  [geom]: the MultiPolygon of the n-th
    area and its WKT, or an exception.  State: the number of areas so far and the output. *)
Definition dump_on_area (geom : nat -> attrs -> outcome string) (a : attrs) (s : nat * string) : (nat * string) * option halt :=
  match geom (fst s) a with
  | Ok wkt => ((S (fst s), snd s ++ dump_area a wkt), None)
  | x => (s, halt_of x)
  end.

(* ---- osmium_toogr2.cpp ---- *)
Local Open Scope Z_scope.
(** a feature in the layer "areas" *)
Record area_row := mkARow { ar_geom : ogr; ar_id : Z }.
(** the number of areas so far, the features, the number of CreateFeature calls *)
Record agstate := mkAg { ag_areas : nat; ag_rows : list area_row; ag_calls : nat }.
(** osmium_toogr2.cpp 96: what the handler catches: IllegalGeometry *)
Definition illegal (e : exn) : bool := match e with EOther n => n =? 11 | _ => false end.
(** osmium_toogr2.cpp 76-100: area().  [geom]: the MultiPolygon of the n-th area and its OGR geometry, or an exception;
    static_cast<int> takes the lower 32 bits *)
Definition ogr_on_area (geom : nat -> attrs -> outcome ogr) (lib : nat -> bool) (a : attrs) (s : agstate) : agstate * option halt :=
  let s1 := mkAg (S (ag_areas s)) (ag_rows s) (ag_calls s) in
  match get_value_by_key (o_tags a) "building" with
  | None => (s1, None)
  | Some _ =>
      match geom (ag_areas s) a with
      | Ok g =>
          if lib (ag_calls s) then (mkAg (S (ag_areas s)) (ag_rows s ++ [mkARow g (to_i32 (o_id a))]) (S (ag_calls s)), None)
          else (mkAg (S (ag_areas s)) (ag_rows s) (S (ag_calls s)), Some (HExn EExit))
      | Throw e => if illegal e then (s1, None) else (s, Some (HExn e))
      | x => (s, halt_of x)
      end
  end.

Section Programs.
  Context {P N : Type}.
  Variable pset : Z -> position -> P -> outcome P.
  Variable pget : Z -> P -> outcome position.
  Variable nset : Z -> position -> N -> outcome N.
  Variable nget : Z -> N -> outcome position.
  Variable build : relation -> list (option object) -> outcome (list attrs).
  Variable srt : list minfo -> list minfo.
  (** osmium_mpdump.cpp 56-88: what is written, and how it ends *)
  Definition mpdump (geom : nat -> attrs -> outcome string) (p0 : P) (n0 : N) (r : reading) : string * option halt :=
    let (s, h) := two_passes pset pget nset nget build srt (dump_on_area geom) p0 n0 r (0%nat, ""%string) in (snd s, h).
  (** osmium_toogr2.cpp 109-138: the features, and how it ends *)
  Definition toogr2 (geom : nat -> attrs -> outcome ogr) (lib : nat -> bool) (p0 : P) (n0 : N) (r : reading) : list area_row * option halt :=
    let (s, h) := two_passes pset pget nset nget build srt (ogr_on_area geom lib) p0 n0 r (mkAg 0 [] 0) in (ag_rows s, h).
End Programs.

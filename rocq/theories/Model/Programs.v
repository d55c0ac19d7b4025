(** Small example programs: examples/osmium_range_from_history.cpp, osmium_store_and_debug.cpp,
    osmium_time.cpp and osmium_find_bbox.cpp.
    The checks of the command line, the opening of the files (Model/OsmFile.v) and the shutdown of
    the protobuf library are not modelled.  What a reader makes of an input file is a [reading]
    (Model/Convert.v). *)
From Verif Require Import Base.Prelude Base.Decimal Model.Osm Model.OsmFile Model.Handler Model.Pbf Model.Xml Model.Convert
  Model.Float Model.Wkt Model.Debug.

(* ---- osmium_range_from_history ---- *)
(** osmium_range_from_history.cpp 30-32: the output handler behind RangeFromHistory behind EndTime;
    from and to are the two results of time(0), which are computed in an unspecified order *)
Definition range_handler {S} (out : callback -> S -> S * option halt) (from to : Z)
  : callback -> lasts * (unit * S) -> (lasts * (unit * S)) * option halt :=
  stacked (stacked out (range_prog from to)) endtime_prog.
(** osmium_range_from_history.cpp 27-33 with a PBF file as output: its contents, or what ended the
    program *)
Definition range_to_pbf (K : codec) (c : pcfg) (m : meta) (sched : list wres) (from to : Z) (r : reading) : outcome bytes :=
  match input_read (range_handler (pbf_out K c m) from to) r (lasts_new, (tt, pwriter_new (mkOfd [] sched))) with
  | ((_, (_, w)), None, _) => Ok (fd_out (w_fd w))
  | (_, Some (HExn e), _) => Throw e
  | (_, Some HUB, _) => UB
  end.
(** the same with an XML file: the library's state, whether its buffer was written, and how it ended *)
Definition range_to_xml {L} (lib : L -> wcall -> L * bool) (lib_free : L -> L * bool) (l : L)
    (ft : ftype) (generator : string) (m : meta) (from to : Z) (r : reading) : L * bool * outcome unit :=
  match input_read (range_handler (xml_out lib lib_free ft generator m) from to) r (lasts_new, (tt, mkXO l None false)) with
  | ((_, (_, s)), None, _) => (xo_lib s, xo_flushed s, Ok tt)
  | ((_, (_, s)), Some (HExn e), _) => (xo_lib s, false, Throw e)
  | ((_, (_, s)), Some HUB, _) => (xo_lib s, false, UB)
  end.

(* ---- osmium_store_and_debug ---- *)
(** storage/objectstore.hpp 62-78: ObjectStore as a handler; handler.hpp 86-115: the other callbacks
    do nothing *)
Definition store_handler (c : callback) (s : ostore) : ostore * option halt :=
  match c with CObj o => halting s (ostore_add o s) | _ => (s, None) end.
(** osmium_store_and_debug.cpp 23-32: the text on stdout and what ended the program.
    storage/objectstore.hpp 189-191: init() gets the Meta of line 30, which is as constructed
    (osm/meta.hpp 38-42). *)
Definition store_and_debug (change file : reading) : string * option halt :=
  match input_read store_handler change ostore_new with
  | (_, Some h, _) => (""%string, Some h)
  | (st, None, _) =>
      let '(s, h, _) := input_read (stacked (debug meta_new false) apply_prog) file (apply_new st, debug_new false false) in
      (d_out (snd s), h)
  end.

(* ---- osmium_time ---- *)
(** osmium_time.cpp 50-52: the counters, and the text on stdout *)
Record tstate := mkTS { ts_nodes : Z; ts_ways : Z; ts_rels : Z; ts_out : string }.
(** osmium_time.cpp 25-54: MyTimerHandler *)
Definition timer (c : callback) (s : tstate) : tstate * option halt :=
  match c with
  | CObj (ONode _) => (mkTS (to_u64 (ts_nodes s + 1)) (ts_ways s) (ts_rels s) (ts_out s), None)
  | CObj (OWay _) => (mkTS (ts_nodes s) (to_u64 (ts_ways s + 1)) (ts_rels s) (ts_out s), None)
  | CObj (ORel _) => (mkTS (ts_nodes s) (ts_ways s) (to_u64 (ts_rels s + 1)) (ts_out s), None)
  | CFinal => (mkTS (ts_nodes s) (ts_ways s) (ts_rels s)
      (ts_out s ++ "nodes: " ++ print_Z (ts_nodes s) ++ "  ways: " ++ print_Z (ts_ways s) ++ "  relations: " ++ print_Z (ts_rels s) ++ nl)%string, None)
  | _ => (s, None)
  end.
(** osmium_time.cpp 59-80 without REPORT_USER_AND_SYSTEM_TIME; elapsed is the difference of the two
    results of time() *)
Definition osmium_time (elapsed : Z) (r : reading) : string * option halt :=
  match input_read timer r (mkTS 0 0 0 ""%string) with
  | (s, None, _) => ((ts_out s ++ "wallclock time: " ++ print_Z elapsed ++ "s" ++ nl)%string, None)
  | (s, Some h, _) => (ts_out s, Some h)
  end.

(* ---- osmium_find_bbox ---- *)
(** osmium_find_bbox.cpp 25-33 *)
Definition osmium_find_bbox (r : reading) : string * option halt :=
  match input_read find_bbox r bounds_new with
  | (b, None, _) =>
      (("minlon=" ++ put_double false (pos_lon (bottom_left b)) ++ " minlat=" ++ put_double false (pos_lat (bottom_left b))
        ++ " maxlon=" ++ put_double false (pos_lon (top_right b)) ++ " maxlat=" ++ put_double false (pos_lat (top_right b)) ++ nl)%string, None)
  | (_, Some h, _) => (""%string, Some h)
  end.

(* ---- osmium_debug, osmium_progress ---- *)
(** osmium_debug.cpp 27-39: the text on stdout and what ended the program; [m]: the Meta of the file,
    [mv]: whether its type has several versions of objects (debug.hpp 49-58), [endtime]: compiled with
    OSMIUM_DEBUG_WITH_ENDTIME *)
Definition osmium_debug (endtime : bool) (m : meta) (mv : bool) (r : reading) : string * option halt :=
  if endtime then
    let '(s, h, _) := input_read (stacked (debug m mv) endtime_prog) r (lasts_new, debug_new true false) in (d_out (snd s), h)
  else let '(s, h, _) := input_read (debug m mv) r (debug_new false false) in (d_out s, h).

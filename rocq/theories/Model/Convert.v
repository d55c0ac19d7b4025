(** Converting files: Input::read (include/osmium.hpp), the output handlers driven by a reader
    (output.hpp, output/pbf.hpp, output/xml.hpp) and examples/osmium_convert.cpp.
    Command line options, the opening of the files (Model/OsmFile.v) and the progress display are
    not modelled here.  The Meta object that is handed to init() is a parameter: it is whatever the
    reader knows at that time. *)
From Verif Require Import Base.Prelude Model.Osm Model.OsmFile Model.Handler Model.Pbf Model.Xml.

(** How a computation on the state of a handler ends.  A failed assert() ends the program, which is
    HUB here; after an exception the old state stands for the state, which nothing looks at. *)
Definition halting {S} (s : S) (r : outcome S) : S * option halt :=
  match r with Ok s' => (s', None) | Throw e => (s, Some (HExn e)) | UB | AssertFail => (s, Some HUB) end.

(** output/pbf.hpp 865-989: Output::PBF as a handler; handler.hpp 86-115: the other callbacks do
    nothing *)
Definition pbf_out (K : codec) (c : pcfg) (m : meta) (x : callback) (w : pwriter) : pwriter * option halt :=
  match x with
  | CInit => halting w (pbf_init K c m w)
  | CObj o => match pbf_object K c o w with
              | Ok (w', None) => (w', None)
              | Ok (w', Some e) => (w', Some (HExn e))
              | Throw e => (w, Some (HExn e))
              | UB | AssertFail => (w, Some HUB)
              end
  | CFinal => halting w (pbf_final K c w)
  | CBefore _ | CAfter _ | CArea _ => (w, None)
  end.

Section Xml.
  Context {L : Type}.
  Variables (lib : L -> wcall -> L * bool) (lib_free : L -> L * bool).
  (** output/xml.hpp 165-168: the library's writer and m_last_op; for the specification, whether the
      buffer was written at the end *)
  Record xout := mkXO { xo_lib : L; xo_op : option ascii; xo_flushed : bool }.
  Definition xml_do (s : xout) (op : option ascii) (cs : outcome (list wcall)) : xout * option halt :=
    match cs with
    | Ok cs => let (l, r) := exec_calls lib (xo_lib s) cs in
               (mkXO l op (xo_flushed s), match r with Ok _ => None | Throw e => Some (HExn e) | _ => Some HUB end)
    | Throw e => (s, Some (HExn e))
    | UB | AssertFail => (s, Some HUB)
    end.
  (** output/xml.hpp 70-163: Output::XML as a handler.  The calls for one object are computed before
      the first is made. *)
  Definition xml_out (ft : ftype) (generator : string) (m : meta) (x : callback) (s : xout) : xout * option halt :=
    match x with
    | CInit => xml_do s (xo_op s) (Ok (xml_init ft generator (mt_bounds m)))
    | CObj o =>
        let op := if ft_eqb ft FtChange then Some (op_of (obj_attrs o)) else xo_op s in
        xml_do s op (let! c := write_object ft o in Ok (open_close_op_tag op (xo_op s) ++ c))
    | CFinal =>
        match xml_do s None (Ok ((if ft_eqb ft FtChange then open_close_op_tag None (xo_op s) else []) ++ [WEnd])) with
        | (s', None) => let (l, fl) := lib_free (xo_lib s') in (mkXO l None fl, None)
        | r => r
        end
    | CBefore _ | CAfter _ | CArea _ => (s, None)
    end.
End Xml.
Arguments xout L : clear implicits.

(** What a reader makes of a file: the groups it hands out and how it ends (Model/Pbf.v read_pbf,
    Model/Xml.v read_xml). *)
Definition reading : Type := (list group * outcome unit)%type.
Definition pbf_reading (r : preading) : reading := (pr_groups r, pr_end r).
Definition xml_reading (r : xresult) : reading := (x_groups (fst r), snd r).

(** osmium.hpp 52-75: Input::read; parse() with the handler, then the reader is deleted, which
    closes the file (input.hpp 81-82, osmfile.hpp 528-534).  The result: the state of the handler, an exception, and
    whether the reader was deleted. *)
Definition input_read {S} (step : callback -> S -> S * option halt) (r : reading) (s : S) : S * option halt * bool :=
  let (st, h) :=
    match snd r with
    | Ok _ => parse step (fst r) None s
    | Throw e => parse step (fst r) (Some e) s
    | UB | AssertFail =>
        match andthen (read_groups step (fst r) (mkR UNKNOWN s [])) (fun st => (st, Some HUB)) with
        | (st, Some (HExn EStopReading)) => call step CFinal st
        | x => x
        end
    end in
  (r_handler st, h, match h with None => true | Some _ => false end).

(** examples/osmium_convert.cpp 119-132 with the output handler; the result is the contents of the
    output file, or what ended the program *)
Definition convert_to_pbf (K : codec) (c : pcfg) (m : meta) (sched : list wres) (r : reading) : outcome bytes :=
  match input_read (pbf_out K c m) r (pwriter_new (mkOfd [] sched)) with
  | (w, None, _) => Ok (fd_out (w_fd w))
  | (_, Some (HExn e), _) => Throw e
  | (_, Some HUB, _) => UB
  end.
(** the library's state, whether its buffer was written, and how it ended *)
Definition convert_to_xml {L} (lib : L -> wcall -> L * bool) (lib_free : L -> L * bool) (l : L)
    (ft : ftype) (generator : string) (m : meta) (r : reading) : L * bool * outcome unit :=
  match input_read (xml_out lib lib_free ft generator m) r (mkXO l None false) with
  | (s, None, _) => (xo_lib s, xo_flushed s, Ok tt)
  | (s, Some (HExn e), _) => (xo_lib s, false, Throw e)
  | (s, Some HUB, _) => (xo_lib s, false, UB)
  end.

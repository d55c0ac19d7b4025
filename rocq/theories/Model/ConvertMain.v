(** The whole of examples/osmium_convert.cpp: options, the two files, reading and writing, and what is
    on the disk afterwards.  On top of Model/Convert.v, Model/OsmFile.v and Model/Progress.v.
    Files are texts of bytes under their names, without links and directories; while the program runs
    nobody else writes to them.  getopt_long, messages, --help and --debug (which changes messages
    only) are left out. *)
From Verif Require Import Base.Prelude Model.Osm Model.OsmFile Model.Handler Model.Pbf Model.Progress Model.Convert.
From Verif Require Import Model.Ogr.
From Verif Require Model.Xml.

(** the bytes of a text, and the text of bytes *)
Definition bytes_of (s : string) : bytes := list_ascii_of_string s.
Definition text_of (b : bytes) : string := string_of_list_ascii b.

(** The outside: the files, what can be read from standard input, and what was written to standard output. *)
Record world := mkWorld { wd_files : string -> option bytes; wd_stdin : bytes; wd_stdout : bytes }.
Definition wd_set (name : string) (b : bytes) (w : world) : world :=
  mkWorld (fun n => if String.eqb n name then Some b else wd_files w n) (wd_stdin w) (wd_stdout w).
Definition wd_print (b : bytes) (w : world) : world := mkWorld (wd_files w) (wd_stdin w) (wd_stdout w ++ b).

(** The libraries, the helper programs and the system:
    protobuf and zlib, libxml2's writer and expat;
    the clock, and whether standard output is a terminal;
    which files ::open can create;
    the results of ::read for a PBF file, of ::read for a text, and of ::write;
    gzip and bzip2: what they make of their input, and whether they report success;
    zcat and bzcat: what they make of a file, and whether they report success, which nobody looks at
      (osmfile.hpp 528-534 ignores the exception);
    curl: what is at a URL. *)
Record environment (L E : Type) := mkEnv {
  ev_codec : codec;
  ev_lib : L -> Xml.wcall -> L * bool; ev_free : L -> L * bool; ev_contents : L -> string; ev_l0 : L;
  ev_expat : E -> string -> bool -> E * list Xml.event * bool; ev_e0 : E;
  ev_clock : nat -> timeval; ev_tty : bool;
  ev_creates : string -> bool;
  ev_rs : list rres; ev_cut : string -> list (option string); ev_ws : list wres;
  ev_zip : fenc -> bytes -> bytes * bool; ev_unzip : fenc -> bytes -> bytes * bool; ev_fetch : string -> bytes }.
Arguments mkEnv {L E}.
Arguments ev_codec {L E}. Arguments ev_lib {L E}. Arguments ev_free {L E}. Arguments ev_contents {L E}. Arguments ev_l0 {L E}.
Arguments ev_expat {L E}. Arguments ev_e0 {L E}. Arguments ev_clock {L E}. Arguments ev_tty {L E}. Arguments ev_creates {L E}.
Arguments ev_rs {L E}. Arguments ev_cut {L E}. Arguments ev_ws {L E}. Arguments ev_zip {L E}. Arguments ev_unzip {L E}. Arguments ev_fetch {L E}.

(** osmium_convert.cpp 50-51, 66-71, 77-88: the options as they are parsed: --from-format, --to-format
    (empty if not given) and the arguments *)
Record copts := mkCO { co_from : string; co_to : string; co_args : list string }.

(** osmium_convert.cpp 90-98, 100-108: an OSMFile object for a name and a format.
    set_type_and_encoding(string) does not throw, so the handlers for ArgumentError (94-97, 104-107) are never used. *)
Definition convert_file (name format : string) : osmfile :=
  let f := osmfile_new name in
  if String.eqb format "" then f
  else let '(t, e) := set_type_and_encoding format in mkOF t e (of_name f) (of_fd f) (of_child f).

Section Convert.
  Context {L E : Type}.
  Variable v : environment L E.

  (* ---- what the reader knows when it calls init() ---- *)
  (** input.hpp 108-113: init() is called with the Meta object before the first group is handed out *)
  Definition seen (st : Xml.xstate) : option meta :=
    match Xml.x_groups st with [] => None | _ :: _ => Some (Xml.x_meta st) end.
  (** input/xml.hpp 181-311: the callbacks made by the parser *)
  Fixpoint events_meta (es : list Xml.event) (st : Xml.xstate) : option meta :=
    match seen st with
    | Some m => Some m
    | None =>
        match es with
        | [] => None
        | e :: r => match Xml.x_event e st with (st', Ok _) => events_meta r st' | (st', _) => seen st' end
        end
    end.
  (** input/xml.hpp 81-103: the loop over the results of ::read *)
  Fixpoint loop_meta (reads : list (option string)) (e : E) (st : Xml.xstate) : option meta :=
    match reads with
    | [] | Some EmptyString :: _ => let '(_, evs, _) := ev_expat v e "" true in events_meta evs st
    | None :: _ => None
    | Some buf :: r =>
        let '(e', evs, ok) := ev_expat v e buf false in
        match events_meta evs st with
        | Some m => Some m
        | None => match Xml.x_events evs st with
                  | (st', Ok _) => if ok then loop_meta r e' st' else None
                  | _ => None
                  end
        end
    end.
  (** input/pbf.hpp 93-144: the loop over the blobs *)
  Fixpoint blobs_meta (expected : ftype) (bs : list (string * bytes)) (m : meta) : option meta :=
    match bs with
    | [] => None
    | (t, d) :: r =>
        if String.eqb t "OSMData" then
          match par_pb (ev_codec v) d with
          | None => None
          | Some b =>
              match parse_groups b (pb_groups b) with
              | (_ :: _, _) => Some m
              | ([], Ok _) => blobs_meta expected r m
              | ([], _) => None
              end
          end
        else if String.eqb t "OSMHeader" then
          match par_hb (ev_codec v) d with
          | None => None
          | Some h => match parse_header expected h m with Ok m' => blobs_meta expected r m' | _ => None end
          end
        else blobs_meta expected r m
    end.

  (* ---- the input ---- *)
  (** osmfile.hpp 661-663, 314-338, 362-376, 410-417: open_for_input and what can be read.  A helper
      that cannot open its file writes nothing; with an empty name there is no such file.  (zcat also
      looks for a file with .gz added to the name; that is left out.) *)
  Definition input_bytes (f : osmfile) (w : world) : outcome bytes :=
    match of_enc f with
    | FeXMLgz | FeXMLbz2 =>
        Ok (if String.eqb (of_name f) "" then []
            else match wd_files w (of_name f) with Some b => fst (ev_unzip v (of_enc f) b) | None => [] end)
    | FePBF | FeXML =>
        if is_url (of_name f) then Ok (ev_fetch v (of_name f))
        else if String.eqb (of_name f) "" then Ok (wd_stdin w)
        else match wd_files w (of_name f) with Some b => Ok b | None => Throw ESystem end
    end.
  (** what is read: the groups and the end, the Meta object at init(), and the Meta object at the end *)
  Record loaded := mkLoaded { ld_reading : reading; ld_init : option meta; ld_meta : meta }.
  (** osmium.hpp 55-75: Input::read, the choice of the reader *)
  Definition read_bytes (f : osmfile) (d : bytes) : loaded :=
    match of_enc f with
    | FePBF =>
        let i := mkIfd d (ev_rs v) in
        let r := read_pbf (ev_codec v) (of_type f) i in
        mkLoaded (pbf_reading r) (blobs_meta (of_type f) (fst (read_blobs (ev_codec v) i)) meta_new) (pr_meta r)
    | _ =>
        let bufs := ev_cut v (text_of d) in
        let r := Xml.read_xml (ev_expat v) (ev_e0 v) bufs in
        mkLoaded (xml_reading r) (loop_meta bufs (ev_e0 v) Xml.x_new) (Xml.x_meta (fst r))
    end.
  Definition load (f : osmfile) (w : world) : outcome loaded := let! d := input_bytes f w in Ok (read_bytes f d).

  (* ---- the output ---- *)
  (** osmfile.hpp 665-667, 314-354, 385-399: open_for_output.  The file is emptied.  The result: an
      exception, or whether there is something to write to: a helper that cannot open its file (there is
      none with an empty name) exits.  The helper opens its file while the program goes on; here it does
      so at once. *)
  Definition open_output (f : osmfile) (w : world) : world * outcome bool :=
    match of_enc f with
    | FeXMLgz | FeXMLbz2 =>
        if negb (String.eqb (of_name f) "") && ev_creates v (of_name f) then (wd_set (of_name f) [] w, Ok true) else (w, Ok false)
    | FePBF | FeXML =>
        if String.eqb (of_name f) "" then (w, Ok true)
        else if ev_creates v (of_name f) then (wd_set (of_name f) [] w, Ok true) else (w, Throw ESystem)
    end.
  (** the file when all that the program wrote has arrived and the helper has ended, and whether the helper reports success *)
  Definition arrived (f : osmfile) (writable : bool) (data : bytes) (w : world) : world * bool :=
    match of_enc f with
    | FeXMLgz | FeXMLbz2 =>
        if writable then let (z, ok) := ev_zip v (of_enc f) data in (wd_set (of_name f) z w, ok) else (w, false)
    | FePBF | FeXML => ((if String.eqb (of_name f) "" then wd_print data w else wd_set (of_name f) data w), true)
    end.
  (** output.hpp 41-42, 136-138, output/pbf.hpp 753-761 (the defaults of the PBF format: 100 and 1000), osmium_convert.cpp 120 *)
  Definition convert_cfg (t : ftype) : pcfg := mkCfg true true true t 100 1000 "osmium_convert".
  (** osmium_convert.cpp 122-125: the output, then the progress display *)
  Definition and_progress {W} (out : callback -> W -> W * option halt) : callback -> W * pstate -> (W * pstate) * option halt :=
    sequence (fun c s => let (a, h) := out c (fst s) in ((a, snd s), h))
             (fun c s => let (p, h) := progress (ev_clock v) c (snd s) in ((fst s, p), h)).
  Definition end_of (h : option halt) : outcome unit :=
    match h with None => Ok tt | Some (HExn e) => Throw e | Some HUB => UB end.
  (** osmium_convert.cpp 118-127: what is written for a reading, what the progress display shows, and how it
      ends.  output.hpp 108-116 with the registrations in output/pbf.hpp 995-999 and output/xml.hpp 233-239:
      the writer for the encoding.  If an exception ends it, libxml2 may have written only a part of this. *)
  Definition write_out (f : osmfile) (m : meta) (r : reading) : bytes * bytes * outcome unit :=
    match of_enc f with
    | FePBF =>
        let '(s, h, _) := input_read (and_progress (pbf_out (ev_codec v) (convert_cfg (of_type f)) m)) r
                            (pwriter_new (mkOfd [] (ev_ws v)), progress_new 1000 (ev_tty v)) in
        (fd_out (w_fd (fst s)), bytes_of (p_out (snd s)), end_of h)
    | _ =>
        let '(s, h, _) := input_read (and_progress (xml_out (ev_lib v) (ev_free v) (of_type f) "osmium_convert" m)) r
                            (mkXO (ev_l0 v) None false, progress_new 1000 (ev_tty v)) in
        (bytes_of (ev_contents v (xo_lib (fst s))), bytes_of (p_out (snd s)), end_of h)
    end.

  (* ---- main ---- *)
  (** osmium_convert.cpp 40-130: main.  The output is opened first (118), then the input (127).  At the
      end of the writing final() waits for the helper (output/xml.hpp 155, osmfile.hpp 536-552): if it was
      not successful, SystemError is thrown; without a helper to write to the program may also end by
      SIGPIPE, for which the exception stands here.  The display comes after the data on standard output.
      EExit is exit(1). *)
  Definition convert_main (o : copts) (w : world) : world * outcome unit :=
    match co_args o with
    | _ :: _ :: _ :: _ => (w, Throw EExit)
    | args =>
        let infile := convert_file (nth 0 args ""%string) (co_from o) in
        let outfile := convert_file (nth 1 args ""%string) (co_to o) in
        match open_output outfile w with
        | (w1, Ok writable) =>
            match load infile w1 with
            | Ok l =>
                let m := match ld_init l with Some m => m | None => meta_new end in
                let '(data, shown, e) := write_out outfile m (ld_reading l) in
                let (w2, ok) := arrived outfile writable data w1 in
                (wd_print shown w2, match e with Ok _ => if ok then Ok tt else Throw ESystem | _ => e end)
            | Throw e => (fst (arrived outfile writable [] w1), Throw e)
            | UB => (w1, UB)
            | AssertFail => (w1, AssertFail)
            end
        | (w1, Throw e) => (w1, Throw e)
        | (w1, _) => (w1, UB)
        end
    end.
End Convert.

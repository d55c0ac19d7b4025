(** The osmjs program and its Javascript handler.
    Models /repo/osmjs/osmjs.cpp and /repo/include/osmium/javascript/handler.hpp.
    v8 is a parameter: its state, what running a source text does to it, which callbacks it has and
    what calling one does.  getopt_long is not modelled, the options come parsed.  Texts for std::cout and
    std::cerr are left out.  A file is given by what the reader finds in it, each time it is read. *)
From Verif Require Import Base.Prelude Model.Osm Model.Store Model.Handler Model.Assembler Model.OsmFile.

(* ---- options ---- *)
(** osmjs.cpp 106-112: location_store_t *)
Inductive location := LNone | LArray | LDisk | LSparse | LVector.
(** osmjs.cpp 114-124, 130: the options; OBad: '?', for which getopt_long has printed a message *)
Inductive opt :=
| ODebug | OInclude (f : string) | OJavascript (f : string) | OHelp | OLocation (s : string) | ONoRepair | OTwo | OMulti | OBad.
(** exit(code), undefined behaviour, or going on *)
Inductive going A := Exit (code : Z) | Undef | Go (a : A).
Arguments Exit {A} code. Arguments Undef {A}. Arguments Go {A} a.
Definition gbind {A B} (x : going A) (f : A -> going B) : going B :=
  match x with Exit c => Exit c | Undef => Undef | Go a => f a end.
(** osmjs.cpp 101-112, 126-127: the variables *)
Record config := mkCfg {
  c_two : bool; c_repair : bool; c_js : string; c_includes : list string; c_store : location; c_debug : bool; c_multi : bool }.
Definition config_new : config := mkCfg false true "" [] LNone false false.

Section Environment.
  (** access(f, R_OK) succeeds *)
  Variable readable : string -> bool.
  (** getenv("HOME") *)
  Variable home : option string.
  (** osmjs.cpp 82-87 *)
  Fixpoint search (path : list string) (f : string) : option string :=
    match path with
    | [] => None
    | d :: r => let p := (d ++ "/" ++ f)%string in if readable p then Some p else search r f
    end.
  (** osmjs.cpp 67-96: find_include_file; a std::string from a null pointer is undefined *)
  Definition find_include_file (f : string) : going string :=
    match home with
    | None => Undef
    | Some h =>
        let path := ["/"; "."; "js"; h ++ "/.osmjs"; "/usr/local/share/osmjs"; "/usr/share/osmjs"]%string in
        let f' := match find_last "." f with None => (f ++ ".js")%string | Some _ => f end in
        match search path f' with Some p => Go p | None => Exit 1 end
    end.
  (** osmjs.cpp 150-163 *)
  Definition location_of (s : string) : option location :=
    if String.eqb s "none" then Some LNone
    else if String.eqb s "array" then Some LArray
    else if String.eqb s "disk" then Some LDisk
    else if String.eqb s "vector" then Some LVector
    else if String.eqb s "sparsetable" then Some LSparse
    else None.
  (** osmjs.cpp 134-177: the switch *)
  Definition option_step (c : config) (o : opt) : going config :=
    match o with
    | ODebug => Go (mkCfg (c_two c) (c_repair c) (c_js c) (c_includes c) (c_store c) true (c_multi c))
    | OInclude f =>
        gbind (find_include_file f) (fun p =>
        Go (mkCfg (c_two c) (c_repair c) (c_js c) (c_includes c ++ [p]) (c_store c) (c_debug c) (c_multi c)))
    | OJavascript f => Go (mkCfg (c_two c) (c_repair c) f (c_includes c) (c_store c) (c_debug c) (c_multi c))
    | OHelp => Exit 0
    | OLocation s =>
        match location_of s with
        | Some l => Go (mkCfg (c_two c) (c_repair c) (c_js c) (c_includes c) l (c_debug c) (c_multi c))
        | None => Exit 1
        end
    | ONoRepair => Go (mkCfg (c_two c) false (c_js c) (c_includes c) (c_store c) (c_debug c) (c_multi c))
    | OTwo => Go (mkCfg true (c_repair c) (c_js c) (c_includes c) (c_store c) (c_debug c) (c_multi c))
    | OMulti => Go (mkCfg true (c_repair c) (c_js c) (c_includes c) (c_store c) (c_debug c) true)
    | OBad => Exit 1
    end.
  (** osmjs.cpp 129-178: the loop *)
  Fixpoint options_loop (c : config) (os : list opt) : going config :=
    match os with [] => Go c | o :: r => gbind (option_step c o) (fun c' => options_loop c' r) end.
  (** osmjs.cpp 180-204; [rest]: argv from optind on.  The configuration, the file and the arguments of the script (217-224) *)
  Definition options (os : list opt) (rest : list string) : going (config * string * list string) :=
    gbind (options_loop config_new os) (fun c =>
    if String.eqb (c_js c) "" then Exit 1
    else match rest with
         | [] => Exit 1
         | file :: args =>
             if c_two c && String.eqb file "-" then Exit 1
             else if c_multi c && match c_store c with LNone => true | _ => false end then Exit 1
             else Go (c, file, args)
         end).
End Environment.

(* ---- the handler ---- *)
(** the value of [this] in a callback *)
Inductive this := OnFunction | OnObject (o : object) | OnArea (a : attrs).
(** what v8::String::New makes of a C string *)
Definition c_string (s : string) : string := upto_first zero s.

Section Javascript.
  Context {S F : Type}.
  (** the contents of a file, if it can be opened *)
  Variable load : string -> option string.
  (** v8 after handler.hpp 155-170 with a value for Osmium.debug, and osmjs.cpp 217-224: argv *)
  Variable boot : bool -> list string -> S.
  (** compiling and running a text; None: one of them failed *)
  Variable eval : string -> S -> option S.
  (** a property of Osmium.Callbacks, if it is a function *)
  Variable func : string -> S -> option F.
  (** calling a function; the second result tells if it threw an exception *)
  Variable invoke : F -> this -> S -> S * bool.

  (** handler.hpp 97-110: js_cb *)
  Record js_cb := mkCb {
    cb_init : option F;
    cb_before_nodes : option F; cb_node : option F; cb_after_nodes : option F;
    cb_before_ways : option F; cb_way : option F; cb_after_ways : option F;
    cb_before_relations : option F; cb_relation : option F; cb_after_relations : option F;
    cb_area : option F; cb_end : option F }.
  (** handler.hpp 174-192: one included file *)
  Definition run_file (f : string) (s : S) : going S :=
    match load f with
    | None => Exit 1
    | Some src => match eval (c_string src) s with Some s' => Go s' | None => Exit 1 end
    end.
  Fixpoint run_files (fs : list string) (s : S) : going S :=
    match fs with [] => Go s | f :: r => gbind (run_file f s) (run_files r) end.
  (** handler.hpp 194-212: the script *)
  Definition run_script (f : string) (s : S) : going S :=
    match load f with
    | None => Exit 1
    | Some EmptyString => Exit 1
    | Some src => match eval (c_string src) s with Some s' => Go s' | None => Exit 1 end
    end.
  (** handler.hpp 214-267: the functions are looked up once *)
  Definition callbacks (s : S) : js_cb :=
    mkCb (func "init" s) (func "before_nodes" s) (func "node" s) (func "after_nodes" s)
      (func "before_ways" s) (func "way" s) (func "after_ways" s)
      (func "before_relations" s) (func "relation" s) (func "after_relations" s) (func "area" s) (func "end" s).
  (** handler.hpp 152-268: the constructor; the debug level of a new handler is 0 (debug.hpp 54), line 160 asks for it *)
  Definition js_new (args includes : list string) (f : string) : going (js_cb * S) :=
    gbind (run_files includes (boot (1 <=? 0) args)) (fun s =>
    gbind (run_script f s) (fun s' => Go (callbacks s', s'))).
  (** handler.hpp 274-370: the result of Call is thrown away *)
  Definition js_call (f : option F) (t : this) (s : S) : S :=
    match f with None => s | Some g => fst (invoke g t s) end.
  Definition js_step (cb : js_cb) (c : callback) (s : S) : S * option halt :=
    (match c with
     | CInit => js_call (cb_init cb) OnFunction s
     | CBefore NODE => js_call (cb_before_nodes cb) OnFunction s
     | CBefore WAY => js_call (cb_before_ways cb) OnFunction s
     | CBefore RELATION => js_call (cb_before_relations cb) OnFunction s
     | CBefore _ => s
     | CObj (ONode n) => js_call (cb_node cb) (OnObject (ONode n)) s
     | CObj (OWay w) => js_call (cb_way cb) (OnObject (OWay w)) s
     | CObj (ORel r) => js_call (cb_relation cb) (OnObject (ORel r)) s
     | CAfter NODE => js_call (cb_after_nodes cb) OnFunction s
     | CAfter WAY => js_call (cb_after_ways cb) OnFunction s
     | CAfter RELATION => js_call (cb_after_relations cb) OnFunction s
     | CAfter _ => s
     | CArea a => js_call (cb_area cb) (OnArea a) s
     | CFinal => js_call (cb_end cb) OnFunction s
     end, None).

  (* ---- the passes ---- *)
  Context {P N : Type}.
  Variable pset : Z -> position -> P -> outcome P.
  Variable pget : Z -> P -> outcome position.
  Variable nset : Z -> position -> N -> outcome N.
  Variable nget : Z -> N -> outcome position.
  (** a new store of each kind (osmjs.cpp 227-240), the store for negative ids (241) *)
  Variable store : location -> P.
  Variable store_neg : N.
  Definition halt_of {A} (o : outcome A) : option halt :=
    match o with Ok _ => None | Throw e => Some (HExn e) | _ => Some HUB end.
  (** osmjs.cpp 257-260: Sequence of CoordinatesForWays and the handler: a way has its positions when the handler sees it *)
  Definition located_js (cb : js_cb) (c : callback) (st : (P * N) * S) : ((P * N) * S) * option halt :=
    match c with
    | CObj o =>
        match cfw_step pset pget nset nget o (fst st) with
        | Ok (o', pn) => let (s, h) := js_step cb (CObj o') (snd st) in ((pn, s), h)
        | x => (st, halt_of x)
        end
    | _ => let (s, h) := js_step cb c (snd st) in ((fst st, s), h)
    end.
  (** builder.build() with or without repair; std::sort of the member infos *)
  Variable build : bool -> relation -> list (option object) -> outcome (list attrs).
  Variable srt : list minfo -> list minfo.
  Definition js_all (cb : js_cb) (cs : list callback) (s : S) : S := fold_left (fun s c => fst (js_step cb c s)) cs s.
  (** osmjs.cpp 246-252: Sequence of CoordinatesForWays and the second pass of the assembler *)
  Definition located_mp (cb : js_cb) (repair : bool) (c : callback) (st : (P * N) * asm * S) : ((P * N) * asm * S) * option halt :=
    let '(pn, a, s) := st in
    let go c pn := match mp_pass2 (build repair) c a with
                   | Ok (a', cs) => ((pn, a', js_all cb cs s), None)
                   | x => (st, halt_of x)
                   end in
    match c with
    | CObj o =>
        match cfw_step pset pget nset nget o pn with
        | Ok (o', pn') => go (CObj o') pn'
        | x => (st, halt_of x)
        end
    | _ => go c pn
    end.

  (** what the reader finds when a file is read for the n-th time *)
  Variable contents : nat -> string -> list group * option exn.
  (** how a run ends: the files it has read, the state of v8, an exception nobody caught *)
  Record ended := mkEnd { e_reads : list string; e_state : S; e_halt : option halt }.
  (** osmjs.cpp 206-265, after the options *)
  Definition passes (cfg : config) (file : string) (args : list string) : going ended :=
    gbind (js_new args (c_includes cfg) (c_js cfg)) (fun q =>
    let (cb, s) := q in
    if c_two cfg then
      match c_store cfg with
      | LNone => Undef
      | l =>
          let (gs1, t1) := contents 0 file in
          let r1 := parse (pass1 mp_select mp_keep srt) gs1 t1 (asm_new mp_want) in
          match snd r1 with
          | Some h => Go (mkEnd [file] s (Some h))
          | None =>
              let (gs2, t2) := contents 1 file in
              let r2 := parse (located_mp cb (c_repair cfg)) gs2 t2 ((store l, store_neg), r_handler (fst r1), s) in
              Go (mkEnd [file; file] (snd (r_handler (fst r2))) (snd r2))
          end
      end
    else
      let (gs, t) := contents 0 file in
      match c_store cfg with
      | LNone => let r := parse (js_step cb) gs t s in Go (mkEnd [file] (r_handler (fst r)) (snd r))
      | l => let r := parse (located_js cb) gs t ((store l, store_neg), s) in Go (mkEnd [file] (snd (r_handler (fst r))) (snd r))
      end).
  (** osmjs.cpp 98-272: main *)
  Definition osmjs (readable : string -> bool) (home : option string) (os : list opt) (rest : list string) : going ended :=
    gbind (options readable home os rest) (fun q => passes (fst (fst q)) (snd (fst q)) (snd q)).
End Javascript.
Arguments js_cb F : clear implicits.

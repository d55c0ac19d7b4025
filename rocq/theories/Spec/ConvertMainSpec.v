(** Specification of the program osmium_convert. *)
From Verif Require Import Base.Prelude Model.Osm Model.OsmFile Model.Pbf Model.Convert Model.ConvertMain Spec.OsmFileSpec Spec.ConvertSpec.
From Verif Require Model.Progress Spec.PbfSpec Spec.XmlSpec Spec.XmlText Spec.Protobuf.

(** the type and the encoding of a file, given by an option or else by its name *)
Inductive given_as (name format : string) : ftype * fenc -> Prop :=
| ga_format te : format <> ""%string -> suffix_means format te -> given_as name format te
| ga_standard : format = ""%string -> name = ""%string \/ name = "-"%string -> given_as name format (FtOSM, FePBF)
| ga_url : format = ""%string -> url name -> given_as name format (FtOSM, FeXML)
| ga_suffix dir stem suffix te : format = ""%string -> splits name dir (stem ++ String "." suffix) -> ~ has "." stem -> ~ url name ->
    suffix_means suffix te -> given_as name format te.
(** a file of a type and an encoding; "-" stands for standard input and output *)
Definition file_of (name : string) (te : ftype * fenc) : osmfile :=
  mkOF (fst te) (snd te) (if String.eqb name "-" then ""%string else name) (-1) 0.
(** names of files on the disk *)
Definition disk_name (name : string) : Prop := ~ In name [""; "-"; "http"; "https"]%string /\ ~ url name.

(** the names that stand for standard input and output *)
Definition std_name (name : string) : Prop := name = ""%string \/ name = "-"%string.

(** the libraries, the helper programs and the system do what they are expected to do *)
Record works {L E} (v : environment L E) : Prop := {
  wk_codec : PbfSpec.codec_ok (ev_codec v);
  wk_xml : XmlSpec.xml_libraries (ev_lib v) (ev_free v) (ev_contents v) (ev_l0 v) (ev_expat v) (ev_e0 v);
  wk_flush : forall l, snd (ev_free v l) = true;
  wk_reads : PbfSpec.reads_ok (ev_rs v);
  wk_cut : forall s, exists bufs, ev_cut v s = map Some bufs /\ XmlSpec.joined bufs = s /\ ~ In ""%string bufs;
  wk_writes : PbfSpec.writes_complete (ev_ws v);
  wk_zip : forall e b, fst (ev_unzip v e (fst (ev_zip v e b))) = b }.

(** the settings for PBF files: dense nodes, compressed, with metadata, the usual precision *)
Definition pbf_defaults (ft : ftype) : pcfg := mkCfg true true true ft 100 1000 "osmium_convert".

(** the bounds elements in front of the first object of a document, and whether there is an object *)
Fixpoint early (e : XmlSpec.xml) : list Xml.xattrs * bool :=
  match e with
  | XmlSpec.Elem n a kids =>
      if XmlSpec.is_object_name n then ([], true)
      else
        let (l, s) := (fix all (ks : list XmlSpec.xml) : list Xml.xattrs * bool :=
                         match ks with
                         | [] => ([], false)
                         | k :: r => let (l, s) := early k in
                                     if s then (l, true) else let (l2, s2) := all r in (l ++ l2, s2)
                         end) kids in
        ((if String.eqb n "bounds" then [a] else []) ++ l, s)
  end.
Fixpoint early_all (ks : list XmlSpec.xml) : list Xml.xattrs * bool :=
  match ks with
  | [] => ([], false)
  | k :: r => let (l, s) := early k in if s then (l, true) else let (l2, s2) := early_all r in (l ++ l2, s2)
  end.
(** the generator of a document and the box around the corners of some bounds elements *)
Definition meta_of (root : string) (a : Xml.xattrs) (bs : list Xml.xattrs) (m : meta) : Prop :=
  mt_generator m = (if Xml.is_root_name root then XmlSpec.attr_or "" "generator" a else ""%string) /\
  exists cs, Forall2 XmlSpec.corners_described bs cs /\
    mt_bounds m = fold_left bounds_extend (flat_map (fun c => [fst c; snd c]) cs) bounds_new.

(** An environment for examples: simple libraries, every file can be created, nothing fails.  The
    helpers put a byte in front of the text and take it away again; [damage] makes them report failure. *)
Definition cut_once (s : string) : list (option string) := match s with EmptyString => [] | _ => [Some s] end.
Definition small_env (damage : bool) : environment XmlText.tw XmlText.xp :=
  mkEnv Protobuf.protobuf XmlText.tw_call XmlText.tw_free XmlText.tw_out XmlText.tw_new XmlText.xp_parse XmlText.xp_new
    (fun _ => Progress.mkTV 0 0) false (fun _ => true) [] cut_once []
    (fun _ b => ("z"%char :: b, true)) (fun _ b => (tl b, negb damage)) (fun _ => []).
(** files with given contents *)
Definition disk (l : list (string * bytes)) : string -> option bytes :=
  fun n => match find (fun p => String.eqb (fst p) n) l with Some p => Some (snd p) | None => None end.

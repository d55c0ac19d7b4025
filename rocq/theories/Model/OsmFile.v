(** osmfile.hpp: file names, file descriptors, helper processes; output.hpp: Factory *)
From Verif Require Import Base.Prelude.

(** osmfile.hpp 186-205: FileType *)
Inductive ftype := FtOSM | FtHistory | FtChange.
(** osmfile.hpp 251-278: FileEncoding *)
Inductive fenc := FePBF | FeXML | FeXMLgz | FeXMLbz2.
Definition ft_suffix (t : ftype) : string := match t with FtOSM => ".osm" | FtHistory => ".osh" | FtChange => ".osc" end.
Definition ft_multiple (t : ftype) : bool := match t with FtOSM => false | _ => true end.
Definition fe_suffix (e : fenc) : string := match e with FePBF => ".pbf" | FeXML => "" | FeXMLgz => ".gz" | FeXMLbz2 => ".bz2" end.
Definition fe_compress (e : fenc) : string := match e with FeXMLgz => "gzip" | FeXMLbz2 => "bzip2" | _ => "" end.
Definition fe_decompress (e : fenc) : string := match e with FeXMLgz => "zcat" | FeXMLbz2 => "bzcat" | _ => "" end.

(** std::string functions used *)
Fixpoint find_first (c : ascii) (s : string) : option nat :=
  match s with
  | EmptyString => None
  | String a r => if Ascii.eqb a c then Some O else match find_first c r with Some n => Some (S n) | None => None end
  end.
Fixpoint find_last (c : ascii) (s : string) : option nat :=
  match s with
  | EmptyString => None
  | String a r => match find_last c r with
                  | Some n => Some (S n)
                  | None => if Ascii.eqb a c then Some O else None
                  end
  end.
Fixpoint drop (n : nat) (s : string) : string :=
  match n, s with S k, String _ r => drop k r | _, _ => s end.
Fixpoint take (n : nat) (s : string) : string :=
  match n, s with S k, String c r => String c (take k r) | _, _ => EmptyString end.
(** s.substr(0, s.find_first_of(c)): everything if c does not occur *)
Definition upto_first (c : ascii) (s : string) : string :=
  match find_first c s with Some n => take n s | None => s end.

(** osmfile.hpp 462-499: set_type_and_encoding (default 566-569) *)
Definition set_type_and_encoding (suffix : string) : ftype * fenc :=
  if String.eqb suffix "pbf" || String.eqb suffix "osm.pbf" then (FtOSM, FePBF)
  else if String.eqb suffix "osm" then (FtOSM, FeXML)
  else if String.eqb suffix "osm.bz2" then (FtOSM, FeXMLbz2)
  else if String.eqb suffix "osm.gz" then (FtOSM, FeXMLgz)
  else if String.eqb suffix "osh.pbf" then (FtHistory, FePBF)
  else if String.eqb suffix "osh" then (FtHistory, FeXML)
  else if String.eqb suffix "osh.bz2" then (FtHistory, FeXMLbz2)
  else if String.eqb suffix "osh.gz" then (FtHistory, FeXMLgz)
  else if String.eqb suffix "osc" then (FtChange, FeXML)
  else if String.eqb suffix "osc.bz2" then (FtChange, FeXMLbz2)
  else if String.eqb suffix "osc.gz" then (FtChange, FeXMLgz)
  else (FtOSM, FePBF).

(** osmfile.hpp 282-300: members *)
Record osmfile := mkOF { of_type : ftype; of_enc : fenc; of_name : string; of_fd : Z; of_child : Z }.
(** osmfile.hpp 411-412, 442-443 *)
Definition is_url (name : string) : bool :=
  let protocol := upto_first ":" name in String.eqb protocol "http" || String.eqb protocol "https".
(** osmfile.hpp 448-456: the suffix; find_first_of gives npos when there is no dot, and npos + 1 is 0 *)
Definition name_suffix (name : string) : string :=
  let n := match find_last "/" name with Some k => S k | None => O end in
  match find_first "." (drop n name) with
  | Some k => drop (S (n + k)) name
  | None => name
  end.
(** osmfile.hpp 429-460: constructor *)
Definition osmfile_new (name : string) : osmfile :=
  if String.eqb name "" || String.eqb name "-" then mkOF FtOSM FePBF "" (-1) 0
  else if is_url name then mkOF FtOSM FeXML name (-1) 0
  else let '(t, e) := set_type_and_encoding (name_suffix name) in mkOF t e name (-1) 0.
(** osmfile.hpp 506-512: copy constructor *)
Definition osmfile_copy (o : osmfile) : osmfile := mkOF (of_type o) (of_enc o) (of_name o) (-1) 0.
(** osmfile.hpp 519-526: operator= (the old descriptor and child are forgotten) *)
Definition osmfile_assign (o : osmfile) : osmfile := mkOF (of_type o) (of_enc o) (of_name o) (-1) 0.
(** osmfile.hpp 592-645: setters *)
Definition of_set_type (t : ftype) (o : osmfile) : osmfile := mkOF t (of_enc o) (of_name o) (of_fd o) (of_child o).
Definition of_set_enc (e : fenc) (o : osmfile) : osmfile := mkOF (of_type o) e (of_name o) (of_fd o) (of_child o).
Definition of_set_name (n : string) (o : osmfile) : osmfile :=
  mkOF (of_type o) (of_enc o) (if String.eqb n "-" then ""%string else n) (of_fd o) (of_child o).
(** osmfile.hpp 597-608 *)
Definition type_of_string (s : string) : outcome ftype :=
  if String.eqb s "osm" then Ok FtOSM
  else if String.eqb s "history" || String.eqb s "osh" then Ok FtHistory
  else if String.eqb s "change" || String.eqb s "osc" then Ok FtChange
  else Throw EArgument.
(** osmfile.hpp 623-636 *)
Definition enc_of_string (s : string) : outcome fenc :=
  if String.eqb s "pbf" then Ok FePBF
  else if String.eqb s "xml" then Ok FeXML
  else if String.eqb s "xmlgz" || String.eqb s "gz" then Ok FeXMLgz
  else if String.eqb s "xmlbz2" || String.eqb s "bz2" then Ok FeXMLbz2
  else Throw EArgument.
(** osmfile.hpp 651-653 *)
Definition filename_without_suffix (o : osmfile) : string := upto_first "." (of_name o).
(** osmfile.hpp 655-659 *)
Definition filename_with_default_suffix (o : osmfile) : string :=
  (filename_without_suffix o ++ ft_suffix (of_type o) ++ fe_suffix (of_enc o))%string.

(* ---- system calls ---- *)
(** What the process does to the outside, in order. *)
Inductive event :=
| EvOpen (fd : Z)           (* ::open returned fd *)
| EvPipe (r w : Z)          (* pipe() made the descriptors r and w *)
| EvFork (pid : Z)          (* fork() returned pid to the parent *)
| EvClose (fd : Z)          (* ::close(fd) *)
| EvWait (pid : Z).         (* waitpid(pid) *)
(** Results of the system calls an operation may make: ::open, pipe and fork may fail
    (None); waitpid may fail or report a failed child (false). *)
Record sysres := mkSys { r_open : option Z; r_pipe : option (Z * Z); r_fork : option Z; r_wait : bool }.
Definition f_result : Type := osmfile * list event * option exn.

(** osmfile.hpp 314-354: execute, as seen by the parent.  [input] 0: read from the child,
    1: write to the child.  When fork fails the pipe is not closed. *)
Definition execute (input : bool) (s : sysres) (o : osmfile) : f_result :=
  match r_pipe s with
  | None => (o, [], Some ESystem)
  | Some (r, w) =>
    match r_fork s with
    | None => (o, [EvPipe r w], Some ESystem)
    | Some pid =>
      let keep := if input then r else w in
      let other := if input then w else r in
      (mkOF (of_type o) (of_enc o) (of_name o) keep pid, [EvPipe r w; EvFork pid; EvClose other], None)
    end
  end.
(** osmfile.hpp 362-376, 385-399: open_input_file, open_output_file, with the assignment to m_fd *)
Definition open_plain (std : Z) (s : sysres) (o : osmfile) : f_result :=
  if String.eqb (of_name o) "" then (mkOF (of_type o) (of_enc o) (of_name o) std (of_child o), [], None)
  else match r_open s with
       | None => (o, [], Some ESystem)
       | Some fd => (mkOF (of_type o) (of_enc o) (of_name o) fd (of_child o), [EvOpen fd], None)
       end.
(** osmfile.hpp 661-663 with 410-417: open_for_input *)
Definition open_for_input (s : sysres) (o : osmfile) : f_result :=
  if String.eqb (fe_decompress (of_enc o)) "" then
    if is_url (of_name o) then execute true s o else open_plain 0 s o
  else execute true s o.
(** osmfile.hpp 665-667: open_for_output *)
Definition open_for_output (s : sysres) (o : osmfile) : f_result :=
  if String.eqb (fe_compress (of_enc o)) "" then open_plain 1 s o else execute false s o.
(** osmfile.hpp 536-552: close *)
Definition of_close (s : sysres) (o : osmfile) : f_result :=
  let ev1 := if of_fd o >=? 0 then [EvClose (of_fd o)] else [] in
  if of_child o =? 0 then (mkOF (of_type o) (of_enc o) (of_name o) (-1) 0, ev1, None)
  else if r_wait s then (mkOF (of_type o) (of_enc o) (of_name o) (-1) 0, ev1 ++ [EvWait (of_child o)], None)
  else (mkOF (of_type o) (of_enc o) (of_name o) (-1) (of_child o), ev1 ++ [EvWait (of_child o)], Some ESystem).

(** A program working on OSMFile objects: objects are numbered in order of creation;
    None marks a destroyed object. *)
Record fstate := mkFS { fs_objs : list (option osmfile); fs_trace : list event }.
Inductive fop :=
| FNew (name : string) | FCopy (i : nat) | FAssign (i j : nat)
| FType (i : nat) (t : ftype) | FEnc (i : nat) (e : fenc) | FName (i : nat) (n : string)
| FOpenIn (i : nat) | FOpenOut (i : nat) | FClose (i : nat) | FDestroy (i : nat).
Fixpoint put {A} (n : nat) (x : A) (l : list A) : list A :=
  match l, n with
  | [], _ => []
  | _ :: r, O => x :: r
  | a :: r, S k => a :: put k x r
  end.
Definition obj (s : fstate) (i : nat) : option osmfile :=
  match nth_error (fs_objs s) i with Some (Some o) => Some o | _ => None end.
Definition on_obj (s : fstate) (i : nat) (f : osmfile -> option osmfile * list event * option exn) : fstate * option exn :=
  match obj s i with
  | None => (s, None)
  | Some o => let '(o', ev, e) := f o in (mkFS (put i o' (fs_objs s)) (fs_trace s ++ ev), e)
  end.
Definition keep_obj (r : f_result) : option osmfile * list event * option exn := let '(o, ev, e) := r in (Some o, ev, e).
(** One operation.  Operations on objects that do not exist do nothing (the program is not
    well formed).  Destruction: osmfile.hpp 528-534, exceptions are swallowed. *)
Definition fstep (op : fop) (sy : sysres) (s : fstate) : fstate * option exn :=
  match op with
  | FNew name => (mkFS (fs_objs s ++ [Some (osmfile_new name)]) (fs_trace s), None)
  | FCopy i => match obj s i with
               | Some o => (mkFS (fs_objs s ++ [Some (osmfile_copy o)]) (fs_trace s), None)
               | None => (s, None) end
  | FAssign i j => match obj s j with
                   | Some o => on_obj s i (fun _ => (Some (osmfile_assign o), [], None))
                   | None => (s, None) end
  | FType i t => on_obj s i (fun o => (Some (of_set_type t o), [], None))
  | FEnc i e => on_obj s i (fun o => (Some (of_set_enc e o), [], None))
  | FName i n => on_obj s i (fun o => (Some (of_set_name n o), [], None))
  | FOpenIn i => on_obj s i (fun o => keep_obj (open_for_input sy o))
  | FOpenOut i => on_obj s i (fun o => keep_obj (open_for_output sy o))
  | FClose i => on_obj s i (fun o => keep_obj (of_close sy o))
  | FDestroy i => on_obj s i (fun o => let '(_, ev, _) := of_close sy o in (None, ev, None))
  end.
Definition fs_init : fstate := mkFS [] [].

(* ---- output factory ---- *)
(** output.hpp 77-119: Factory; the map from encodings to creation functions.  C is the
    type of creation functions. *)
Section Factory.
Context {C : Type}.
Definition fe_eqb (a b : fenc) : bool :=
  match a, b with FePBF, FePBF | FeXML, FeXML | FeXMLgz, FeXMLgz | FeXMLbz2, FeXMLbz2 => true | _, _ => false end.
Definition factory := list (fenc * C).
Fixpoint fac_find (e : fenc) (m : factory) : option C :=
  match m with [] => None | (e', c) :: r => if fe_eqb e e' then Some c else fac_find e r end.
(** output.hpp 97-99: register_output_format: std::map::insert leaves an existing entry alone *)
Definition fac_register (e : fenc) (c : C) (m : factory) : factory * bool :=
  match fac_find e m with Some _ => (m, false) | None => ((e, c) :: m, true) end.
(** output.hpp 101-103: unregister_output_format *)
Definition fac_unregister (e : fenc) (m : factory) : factory * bool :=
  (filter (fun p => negb (fe_eqb e (fst p))) m, match fac_find e m with Some _ => true | None => false end).
(** output.hpp 105-113: create_output calls the creation function found or throws
    FileEncodingNotSupported *)
Definition fac_create (e : fenc) (m : factory) : outcome C :=
  match fac_find e m with Some c => Ok c | None => Throw (EOther 1) end.
End Factory.

(** Specification of file names, of descriptor and process bookkeeping and of the factory. *)
From Verif Require Import Base.Prelude Model.OsmFile.

Definition has (c : ascii) (s : string) : Prop := exists a b, s = (a ++ String c b)%string.

(** the documented suffixes (osmfile.hpp, class comment and the table of types and encodings) *)
Definition suffix_table : list (string * (ftype * fenc)) :=
  [("pbf", (FtOSM, FePBF)); ("osm.pbf", (FtOSM, FePBF)); ("osm", (FtOSM, FeXML)); ("osm.bz2", (FtOSM, FeXMLbz2)); ("osm.gz", (FtOSM, FeXMLgz));
   ("osh.pbf", (FtHistory, FePBF)); ("osh", (FtHistory, FeXML)); ("osh.bz2", (FtHistory, FeXMLbz2)); ("osh.gz", (FtHistory, FeXMLgz));
   ("osc", (FtChange, FeXML)); ("osc.bz2", (FtChange, FeXMLbz2)); ("osc.gz", (FtChange, FeXMLgz))]%string.
(** meaning of a suffix: the table, OSM and PBF for everything else *)
Definition suffix_means (suffix : string) (te : ftype * fenc) : Prop :=
  In (suffix, te) suffix_table \/ (~ In suffix (map fst suffix_table) /\ te = (FtOSM, FePBF)).
(** [splits name dir base]: base is the part after the last slash *)
Definition splits (name dir base : string) : Prop :=
  name = (dir ++ base)%string /\ ~ has "/" base /\ (dir = ""%string \/ exists d, dir = (d ++ "/")%string).
Definition url (name : string) : Prop := exists rest, name = ("http:" ++ rest)%string \/ name = ("https:" ++ rest)%string.

(** the names of types and encodings *)
Definition type_table : list (string * ftype) :=
  [("osm", FtOSM); ("osh", FtHistory); ("history", FtHistory); ("osc", FtChange); ("change", FtChange)]%string.
Definition enc_table : list (string * fenc) :=
  [("pbf", FePBF); ("xml", FeXML); ("gz", FeXMLgz); ("xmlgz", FeXMLgz); ("bz2", FeXMLbz2); ("xmlbz2", FeXMLbz2)]%string.

(* ---- descriptors and child processes ---- *)
(** descriptors the process has open after a trace, besides 0, 1 and 2 *)
Fixpoint without (x : Z) (l : list Z) : list Z :=
  match l with [] => [] | y :: r => if x =? y then without x r else y :: without x r end.
Definition fds_step (l : list Z) (e : event) : list Z :=
  match e with
  | EvOpen fd => fd :: l
  | EvPipe r w => r :: w :: l
  | EvClose fd => without fd l
  | _ => l
  end.
Definition fds (tr : list event) : list Z := fold_left fds_step tr [].
(** children that were not waited for *)
Definition kids_step (l : list Z) (e : event) : list Z :=
  match e with EvFork pid => pid :: l | EvWait pid => without pid l | _ => l end.
Definition kids (tr : list event) : list Z := fold_left kids_step tr [].

(** The kernel hands out descriptors that are not in use. *)
Definition fresh_fds (tr : list event) (sy : sysres) : Prop :=
  (forall fd, r_open sy = Some fd -> 3 <= fd /\ ~ In fd (fds tr)) /\
  (forall r w, r_pipe sy = Some (r, w) -> 3 <= r /\ 3 <= w /\ r <> w /\ ~ In r (fds tr) /\ ~ In w (fds tr)).
(** process ids of running children, or of all children so far, are not handed out again *)
Definition fresh_pid (tr : list event) (sy : sysres) : Prop := forall p, r_fork sy = Some p -> 0 < p /\ ~ In p (kids tr).
Definition new_pid (tr : list event) (sy : sysres) : Prop := forall p, r_fork sy = Some p -> 0 < p /\ ~ In (EvFork p) tr.

(** runs of a program *)
Fixpoint frun (l : list (fop * sysres)) (s : fstate) : fstate :=
  match l with [] => s | (op, sy) :: r => frun r (fst (fstep op sy s)) end.
(** a condition on the results of the system calls holds at every step *)
Fixpoint along (P : list event -> sysres -> Prop) (l : list (fop * sysres)) (s : fstate) : Prop :=
  match l with [] => True | (op, sy) :: r => P (fs_trace s) sy /\ along P r (fst (fstep op sy s)) end.
(** a condition on the operations *)
Fixpoint ops_along (P : fstate -> fop -> sysres -> Prop) (l : list (fop * sysres)) (s : fstate) : Prop :=
  match l with [] => True | (op, sy) :: r => P s op sy /\ ops_along P r (fst (fstep op sy s)) end.

(** no descriptor is closed that is not open at that point (stdin and stdout apart) *)
Definition closes_open (tr : list event) : Prop :=
  forall pre fd post, tr = pre ++ EvClose fd :: post -> fd = 0 \/ fd = 1 \/ In fd (fds pre).
(** nobody waits for a child that does not exist (any more) *)
Definition waits_running (tr : list event) : Prop :=
  forall pre p post, tr = pre ++ EvWait p :: post -> In p (kids pre).

(** careful use: open only what is not open, assign only to files that are not open; the
    calls needed for an open do not fail after the pipe was made, helpers succeed *)
Definition careful (s : fstate) (op : fop) (sy : sysres) : Prop :=
  r_wait sy = true /\
  match op with
  | FOpenIn i | FOpenOut i => r_fork sy <> None /\ (forall o, obj s i = Some o -> of_fd o = -1 /\ of_child o = 0)
  | FAssign i _ => forall o, obj s i = Some o -> of_fd o = -1 /\ of_child o = 0
  | _ => True
  end.
(** nothing is left open: all objects were closed or destroyed *)
Definition all_closed (s : fstate) : Prop := forall i o, obj s i = Some o -> of_fd o = -1 /\ of_child o = 0.

(* ---- factory ---- *)
Inductive facop (C : Type) := Reg (e : fenc) (c : C) | Unreg (e : fenc).
Arguments Reg {C}. Arguments Unreg {C}.
Fixpoint facrun {C} (l : list (facop C)) (m : factory) : factory :=
  match l with
  | [] => m
  | Reg e c :: r => facrun r (fst (fac_register e c m))
  | Unreg e :: r => facrun r (fst (fac_unregister e m))
  end.
(** c is the first function registered for e after the last unregistration of e *)
Definition first_registered {C} (l : list (facop C)) (e : fenc) (c : C) : Prop :=
  exists pre post, l = pre ++ Reg e c :: post /\ ~ In (Unreg e) post /\
    (forall a c' b, pre = a ++ Reg e c' :: b -> In (Unreg e) b).
(** c is the function registered last for e, and e was not unregistered later *)
Definition last_registered {C} (l : list (facop C)) (e : fenc) (c : C) : Prop :=
  exists pre post, l = pre ++ Reg e c :: post /\ ~ In (Unreg e) post /\ (forall c', ~ In (Reg e c') post).
(** nothing is registered for e *)
Definition none_registered {C} (l : list (facop C)) (e : fenc) : Prop :=
  forall a c b, l = a ++ Reg e c :: b -> In (Unreg e) b.
(** no registration for an encoding that has one already *)
Definition registers_once {C} (l : list (facop C)) : Prop :=
  forall a e c b c' d, l = a ++ Reg e c :: b ++ Reg e c' :: d -> In (Unreg e) b.

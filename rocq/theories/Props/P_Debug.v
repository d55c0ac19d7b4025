(** C68: the dump of a file as text. *)
From Verif Require Import Base.Prelude Model.Osm Model.Handler Model.Pbf Model.Convert Model.Debug Spec.TimeSpec Spec.HandlerSpec Spec.DebugSpec
  Proofs.Debug2Proofs.
Local Open Scope string_scope.

(* ---- C68 ---- *)
(** Every callback is shown, in order, and the reader of the dump finds all the data. *)
Theorem C68_dump_read : forall m mv hist fixed gs, showable_meta m -> gs <> [] -> (forall g, In g gs -> well_typed g) ->
  Forall showable (flat_map snd gs) ->
  exists s rs, input_read (debug m mv) (gs, Ok tt) (debug_new hist fixed) = (s, None, true) /\
    read_dump (d_out s) = Some rs /\ Forall2 (shows_call m (hist || mv)) rs (protocol gs ++ [CFinal]).
Proof. exact dump_file. Qed.
Print Assumptions C68_dump_read.
(** What the dump says about an object is unambiguous. *)
Theorem C68_unambiguous : forall hist r o p, shows_object hist r o -> shows_object hist r p -> same_shown hist o p.
Proof. exact object_unique. Qed.
Print Assumptions C68_unambiguous.
(** Files with the same dump have the same objects. *)
Theorem C68_same_dump : forall m m' mv hist fixed fixed' gs gs' s s', showable_meta m -> showable_meta m' -> gs <> [] -> gs' <> [] ->
  (forall g, In g gs -> well_typed g) -> (forall g, In g gs' -> well_typed g) ->
  Forall showable (flat_map snd gs) -> Forall showable (flat_map snd gs') ->
  input_read (debug m mv) (gs, Ok tt) (debug_new hist fixed) = (s, None, true) ->
  input_read (debug m' mv) (gs', Ok tt) (debug_new hist fixed') = (s', None, true) -> d_out s = d_out s' ->
  Forall2 (same_call (hist || mv)) (protocol gs) (protocol gs').
Proof. exact same_dump. Qed.
Print Assumptions C68_same_dump.

(* ---- examples and findings ---- *)
Definition dn (id : Z) (x y : Z) (tags : list tag) : object := ONode (mkNode (mkAttrs id 1 7 1000000000 0 5 "joe" true tags) (mkPos x y)).
Definition dump_of (m : meta) (gs : list group) : string * option halt :=
  let '(s, h, _) := input_read (debug m false) (gs, Ok tt) (debug_new false false) in (d_out s, h).
Definition ex_dump : list group :=
  [(NODE, [dn 1 (-1234567) 20000000 [mkTag "name" "a|b"; mkTag "" ""]]);
   (RELATION, [ORel (mkRelation (mkAttrs (-4) 2 7 0 0 (-1) "" false []) [mkMember "n" 1 "stop|"; mkMember "w" (-3) ""])])].
Example C68_example : showable_meta (mkMeta "me" (mkBounds (mkPos (-1234567) 0) (mkPos 10 200000000))) /\
  (forall g, In g ex_dump -> well_typed g) /\ Forall showable (flat_map snd ex_dump) /\
  dump_of (mkMeta "me" (mkBounds (mkPos (-1234567) 0) (mkPos 10 200000000))) ex_dump = ("meta:
  generator=me
  bounds=(-0.123457,0,1e-06,20)
before_nodes
node:
  id=1
  version=1
  uid=5
  user=|joe|
  changeset=7
  timestamp=2001-09-09T01:46:40Z
  tags: (count=2)
    k=|name| v=|a|b|
    k=|| v=||
  lon=-0.1234567
  lat=2.0000000
after_nodes
before_relations
relation:
  id=-4
  version=2
  uid=-1
  user=||
  changeset=7
  timestamp=
  tags: (count=0)
  members: (count=2)
    type=n ref=1 role=|stop||
    type=w ref=-3 role=||
after_relations
final
", None).
Proof.
  split; [|split; [|split]].
  - split; [intros X; cbn in X; repeat destruct X as [X|X]; (discriminate X || exact X)|unfold in_i32, int32_min, int32_max; cbn; lia|unfold in_i32, int32_min, int32_max; cbn; lia].
  - intros g [<-|[<-|[]]]; (split; [unfold object_type; cbn; auto|]); intros o [<-|[]]; reflexivity.
  - assert (T : forall s, existsb (fun c => Ascii.eqb c newline || Ascii.eqb c zero) (list_ascii_of_string s) = false -> showable_text s).
    { intros s H. split; intros X; enough (existsb (fun c => Ascii.eqb c newline || Ascii.eqb c zero) (list_ascii_of_string s) = true) by congruence;
        apply existsb_exists; eexists; (split; [exact X|reflexivity]). }
    repeat constructor; cbn -[Z.le]; try (apply T; reflexivity); try (unfold showable_time, last_time; cbn; lia);
      try (unfold in_i32, int32_min, int32_max; cbn; lia); try discriminate.
    all: intros X; cbn in X; repeat destruct X as [X|X]; (discriminate X || exact X).
  - vm_compute. reflexivity.
Qed.
(** Finding: the dump does not escape anything.  A tag value with line breaks makes one object look
    like two. *)
Definition forged : string := "v|
  lon=0.0000000
  lat=0.0000000
node:
  id=2
  version=1
  uid=5
  user=|joe|
  changeset=7
  timestamp=2001-09-09T01:46:40Z
  tags: (count=1)
    k=|x| v=|w".
Theorem C68_forged_refuted : exists m gs gs', dump_of m gs = dump_of m gs' /\ snd (dump_of m gs) = None /\
  (forall g, In g (gs ++ gs') -> well_typed g) /\ List.length (flat_map snd gs) = 1%nat /\ List.length (flat_map snd gs') = 2%nat.
Proof.
  exists (mkMeta "" bounds_new), [(NODE, [dn 1 5 6 [mkTag "k" forged]])], [(NODE, [dn 1 0 0 [mkTag "k" "v"]; dn 2 5 6 [mkTag "x" "w"]])].
  split; [vm_compute; reflexivity|]. split; [vm_compute; reflexivity|]. split; [|split; reflexivity].
  intros g [<-|[<-|[]]]; (split; [left; reflexivity|]); intros o H; repeat destruct H as [<-|H]; try reflexivity; destruct H.
Qed.
Print Assumptions C68_forged_refuted.
(** Finding: a bar in a key makes the tag ambiguous, even on one line. *)
Theorem C68_bar_refuted : exists m o p, dump_of m [(NODE, [o])] = dump_of m [(NODE, [p])] /\ snd (dump_of m [(NODE, [o])]) = None /\
  well_typed (NODE, [o; p]) /\ o_tags (obj_attrs o) <> o_tags (obj_attrs p).
Proof.
  exists (mkMeta "" bounds_new), (dn 1 0 0 [mkTag "a| v=|b" "c"]), (dn 1 0 0 [mkTag "a" "b| v=|c"]).
  split; [vm_compute; reflexivity|]. split; [vm_compute; reflexivity|]. split; [|discriminate].
  split; [left; reflexivity|]. intros o H; repeat destruct H as [<-|H]; try reflexivity; destruct H.
Qed.
Print Assumptions C68_bar_refuted.
(** Finding: of the bounds of a file only six significant digits are shown; different bounds give the same dump. *)
Theorem C68_bounds_refuted : exists m m' o, showable_meta m /\ showable_meta m' /\ mt_bounds m <> mt_bounds m' /\
  dump_of m [(NODE, [o])] = dump_of m' [(NODE, [o])] /\ snd (dump_of m [(NODE, [o])]) = None.
Proof.
  exists (mkMeta "" (mkBounds (mkPos 101234121 0) (mkPos 110000000 0))), (mkMeta "" (mkBounds (mkPos 101234321 0) (mkPos 110000000 0))), (dn 1 0 0 []).
  assert (N : one_line "") by (intros []).
  split; [split; [exact N|unfold in_i32, int32_min, int32_max; cbn; lia ..]|]. split; [split; [exact N|unfold in_i32, int32_min, int32_max; cbn; lia ..]|].
  split; [discriminate|]. split; vm_compute; reflexivity.
Qed.
Print Assumptions C68_bounds_refuted.

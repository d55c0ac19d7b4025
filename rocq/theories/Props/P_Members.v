(** C73: the program that shows relations with their members.  Statements only, the proofs are in Proofs. *)
From Verif Require Import Base.Prelude Model.Osm Model.Handler Model.Assembler Model.Convert Model.Debug Model.Members
  Spec.HandlerSpec Spec.AssemblerSpec Spec.ToshapeSpec Spec.MembersSpec Proofs.MembersProofs Props.P_Assembler.
Local Open Scope Z_scope.

(* ---- C73 ---- *)
(** Each relation whose members are all in the file is shown once as complete, in the order in which they become
    complete; after them each relation with a missing member is shown once as incomplete, in the order of the file.
    Each member is shown with the object it names, or as missing if it is not in the file.  The incomplete ones need a file
    with all three types of objects. *)
Theorem C73_report : forall srt gs, sorts srt -> in_order gs ->
  let os := flat_map snd gs in
  exists complete incomplete, relation_members srt (gs, Ok tt) = (report (complete ++ incomplete), None) /\
    NoDup (map sh_relation complete) /\
    (forall r, In r (map sh_relation complete) <-> In r (relations_of os) /\ all_there os r) /\
    (forall x, In x complete -> right_entry os true (sh_relation x) x) /\
    (forall l1 x l2 y l3 n, complete = l1 ++ x :: l2 ++ y :: l3 ->
       all_there (firstn n os) (sh_relation y) -> all_there (firstn n os) (sh_relation x)) /\
    (all_types gs -> exported (one_missing os) (right_entry os false) (relations_of os) incomplete) /\
    (~ all_types gs -> incomplete = []).
Proof. exact members_program. Qed.
Print Assumptions C73_report.

(* ---- examples ---- *)
Definition mattrs (id : Z) (ts : tag_list) : attrs := mkAttrs id 1 7 1000000000 0 5 "joe" true ts.
Definition mnode (id : Z) (ts : tag_list) : object := ONode (mkNode (mattrs id ts) (mkPos 1 1)).
Definition mway (id : Z) (ts : tag_list) : object := OWay (mkWay (mattrs id ts) [mkWN 1 undef_pos; mkWN 2 undef_pos]).
Definition mrel (id : Z) (ts : tag_list) (ms : list (ascii * Z * string)) : object :=
  ORel (mkRelation (mattrs id ts) (map (fun m => mkMember (fst (fst m)) (snd (fst m)) (snd m)) ms)).
Definition members_file : list (otype * list object) :=
  [(NODE, [mnode 1 [mkTag "amenity" "pub"]]); (NODE, [mnode 2 []]); (WAY, [mway 7 [mkTag "highway" "path"; mkTag "ref" "4"]]);
   (RELATION, [mrel 10 [mkTag "type" "route"] [("w"%char, 7, "forward"%string); ("n"%char, 1, ""%string)];
               mrel 11 [] [("n"%char, 9, "stop"%string); ("r"%char, 10, ""%string)]; mrel 12 [] [("x"%char, 1, ""%string)]])].
Example C73_ex : relation_members isort (members_file, Ok tt) =
  (text_of ["Relation 10"; "  type=route"; "  [0] Member way 7 with role 'forward'"; "      highway=path"; "      ref=4";
            "  [1] Member node 1 with role ''"; "      amenity=pub"; "";
            "Relation 11 (INCOMPLETE)"; "  [0] Member node 9 with role 'stop' (NOT IN INPUT FILE)"; "  [1] Member relation 10 with role ''";
            "      type=route"; ""; "Relation 12 (INCOMPLETE)"; "  [0] Member  1 with role '' (NOT IN INPUT FILE)"; ""]%string, None).
Proof. vm_compute. reflexivity. Qed.
Lemma typed_groups (gs : list (otype * list object)) :
  forallb (fun g => match fst g with NODE | WAY | RELATION => forallb (fun o => otype_eqb (obj_type o) (fst g)) (snd g) | _ => false end) gs = true ->
  forall g, In g gs -> well_typed g.
Proof.
  intros H g Hg. rewrite forallb_forall in H. specialize (H g Hg). destruct g as [t os]. cbn [fst snd] in H.
  assert (object_type t /\ forallb (fun o => otype_eqb (obj_type o) t) os = true) as [O F] by (unfold object_type; destruct t; try discriminate; auto).
  split; [exact O|]. cbn [fst snd]. intros o Ho. rewrite forallb_forall in F. specialize (F o Ho). destruct (obj_type o), t; try discriminate; reflexivity.
Qed.
Example C73_hyps_ex : in_order members_file /\ all_types members_file.
Proof.
  split; [split; [apply typed_groups; reflexivity|split]|].
  - cbn. repeat constructor; cbn; intuition discriminate.
  - unfold no_repeats. cbn. repeat constructor; cbn; intuition discriminate.
  - intros t [->|[->| ->]]; cbn; auto.
Qed.
(** Finding: a relation without members is not shown, neither as complete nor as incomplete. *)
Theorem C73_empty_relation_refuted : exists gs r, in_order gs /\ all_types gs /\ In r (relations_of (flat_map snd gs)) /\
  forall srt, sorts srt -> relation_members srt (gs, Ok tt) = (""%string, None).
Proof.
  exists [(NODE, [mnode 1 []]); (WAY, [mway 7 []]); (RELATION, [mrel 10 [] []])]. eexists.
  assert (IO : in_order [(NODE, [mnode 1 []]); (WAY, [mway 7 []]); (RELATION, [mrel 10 [] []])]).
  { split; [apply typed_groups; reflexivity|]. split; cbn; unfold no_repeats; cbn; repeat constructor; cbn; intuition discriminate. }
  assert (AT : all_types [(NODE, [mnode 1 []]); (WAY, [mway 7 []]); (RELATION, [mrel 10 [] []])]) by (intros t [->|[->| ->]]; cbn; auto).
  split; [exact IO|]. split; [exact AT|]. split; [left; reflexivity|]. intros srt S.
  destruct (C73_report srt _ S IO) as (c & i & E & _ & C & _ & _ & I & _). rewrite E. cbn [flat_map snd app] in C, I. specialize (I AT).
  assert (c = []) as ->.
  { destruct c as [|x c]; auto. destruct (proj1 (C (sh_relation x))) as [[H|[]] [N _]]; [left; reflexivity|]. destruct N. rewrite <- H. reflexivity. }
  inversion I as [|? ? ? ? M|? ? ? _ I2]; subst; [destruct M as (m & [] & _)|]. inversion I2. reflexivity.
Qed.
Print Assumptions C73_empty_relation_refuted.
(** Finding: in a file without ways, say, incomplete relations are not shown. *)
Theorem C73_missing_type_refuted : exists gs r, in_order gs /\ In r (relations_of (flat_map snd gs)) /\ one_missing (flat_map snd gs) r /\
  forall srt, sorts srt -> relation_members srt (gs, Ok tt) = (""%string, None).
Proof.
  exists [(NODE, [mnode 1 []]); (RELATION, [mrel 10 [] [("n"%char, 2, ""%string)]])]. eexists.
  assert (IO : in_order [(NODE, [mnode 1 []]); (RELATION, [mrel 10 [] [("n"%char, 2, ""%string)]])]).
  { split; [apply typed_groups; reflexivity|]. split; cbn; unfold no_repeats; cbn; repeat constructor; cbn; intuition discriminate. }
  split; [exact IO|]. split; [left; reflexivity|].
  assert (NF : forall o, In o (flat_map snd [(NODE, [mnode 1 []]); (RELATION, [mrel 10 [] [("n"%char, 2, ""%string)]])]) -> ~ right_object (mkMember "n" 2 "") o).
  { intros o [<-|[<-|[]]] [H1 H2]; discriminate. }
  split; [eexists; split; [left; reflexivity|exact NF]|]. intros srt S.
  destruct (C73_report srt _ S IO) as (c & i & E & _ & C & _ & _ & _ & I). rewrite E.
  rewrite I by (intros A; specialize (A WAY (or_intror (or_introl eq_refl))); cbn in A; intuition discriminate).
  assert (c = []) as ->.
  { destruct c as [|x c]; auto. destruct (proj1 (C (sh_relation x))) as [[H|[]] [_ N]]; [left; reflexivity|].
    rewrite <- H in N. destruct (N _ (or_introl eq_refl)) as (o & Ho & Ro). destruct (NF o Ho Ro). }
  reflexivity.
Qed.
Print Assumptions C73_missing_type_refuted.
(** Finding: with nodes before and after the ways, all members are taken to be read too early: a relation is shown as
    incomplete, with a member as missing that is in the file, and the program aborts when it reads this member. *)
Theorem C73_unsorted_refuted : exists gs r m, (forall g, In g gs -> well_typed g) /\ no_repeats (flat_map snd gs) /\
  r_members r = [m] /\ all_there (flat_map snd gs) r /\ In r (relations_of (flat_map snd gs)) /\
  relation_members isort (gs, Ok tt) = (report [mkShown r false [None]], Some HUB).
Proof.
  exists [(NODE, [mnode 1 []]); (WAY, [mway 7 []]); (NODE, [mnode 2 []]); (RELATION, [mrel 10 [] []; mrel 11 [] [("r"%char, 10, ""%string)]])].
  eexists (mkRelation (mattrs 11 []) [mkMember "r" 10 ""]). eexists. split; [apply typed_groups; reflexivity|].
  split; [unfold no_repeats; cbn; repeat constructor; cbn; intuition discriminate|]. split; [reflexivity|]. split.
  - split; [discriminate|]. intros m [<-|[]]. exists (mrel 10 [] []). split; [cbn; auto 6|split; reflexivity].
  - split; [cbn; auto|]. vm_compute. reflexivity.
Qed.
Print Assumptions C73_unsorted_refuted.

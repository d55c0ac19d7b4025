(** C28-C30: the relation assembler and the multipolygon assembler. *)
From Verif Require Import Base.Prelude Model.Osm Model.Handler Model.Assembler
  Spec.HandlerSpec Spec.AssemblerSpec Proofs.Assembler3Proofs Proofs.Assembler4Proofs.

Definition at_ (id : Z) : attrs := mkAttrs id 1 0 1 0 (-1) "" true [].
Definition tat (id : Z) (v : string) : attrs := mkAttrs id 1 0 1 0 (-1) "" true [mkTag "type" v].
Definition n_ (id : Z) : object := ONode (mkNode (at_ id) (mkPos 1 1)).
Definition w_ (id : Z) (refs : list Z) : object := OWay (mkWay (at_ id) (map (fun r => mkWN r undef_pos) refs)).
Definition rel (id : Z) (v : string) (ms : list (ascii * Z)) : relation :=
  mkRelation (tat id v) (map (fun x => mkMember (fst x) (snd x) "") ms).
(** a sort for the examples: insertion sort *)
Fixpoint ins (x : minfo) (l : list minfo) : list minfo :=
  match l with [] => [x] | y :: r => if mi_id x <=? mi_id y then x :: l else y :: ins x r end.
Definition isort (l : list minfo) : list minfo := fold_right ins [] l.
Lemma ins_perm x l : Permutation (ins x l) (x :: l).
Proof.
  induction l as [|y l IH]; cbn; auto. destruct (mi_id x <=? mi_id y); auto.
  eapply perm_trans; [apply perm_skip; exact IH|apply perm_swap].
Qed.
Lemma isort_sorts : sorts isort.
Proof.
  intros l. induction l as [|x l [IH1 IH2]]; cbn; [split; constructor|]. split.
  - eapply perm_trans; [apply ins_perm|]. now apply perm_skip.
  - fold (isort l). revert IH2. generalize (isort l). clear. intros l S. induction S as [|y l S IH F]; cbn; [repeat constructor|].
    rewrite Forall_forall in F. destruct (Z.leb_spec (mi_id x) (mi_id y)).
    + constructor; [constructor; auto; rewrite Forall_forall; auto|]. rewrite Forall_forall. intros z [<-|Hz]; auto. specialize (F z Hz). lia.
    + constructor; auto. rewrite Forall_forall. intros z Hz. apply (Permutation_in _ (ins_perm x l)) in Hz as [<-|Hz]; [lia|auto].
Qed.

(** Everything that happens in the second pass, callback by callback. *)
Theorem C28_events : forall select keep want srt gs runs,
  sorts srt -> (forall g, In g gs -> well_typed g) -> sorted_file runs ->
  let a := r_handler (fst (parse (pass1 select keep srt) gs None (asm_new want))) in
  exists a' es, pass2_all want (file_calls runs) a = Ok (a', es) /\ List.length es = List.length (file_calls runs) /\
    forall p c q, file_calls runs = p ++ c :: q ->
      events_at keep want (filter select (first_relations gs)) p c (nth (List.length p) es []).
Proof. exact assembler_correct. Qed.
Print Assumptions C28_events.
Theorem C28_exactly_once : forall select keep want srt gs runs,
  sorts srt -> (forall g, In g gs -> well_typed g) -> sorted_file runs ->
  let a := r_handler (fst (parse (pass1 select keep srt) gs None (asm_new want))) in
  let rs := filter select (first_relations gs) in
  exists a' es, pass2_all want (file_calls runs) a = Ok (a', es) /\
    (forall j r, nth_error rs j = Some r -> complete_with keep (wanted want (flat_map snd runs)) r ->
       exists e1 ms e2, List.concat es = e1 ++ EComplete j r ms :: e2 /\ forall x, In x (e1 ++ e2) -> ~ completes j x) /\
    (forall j r ms, In (EComplete j r ms) (List.concat es) ->
       nth_error rs j = Some r /\ complete_with keep (wanted want (flat_map snd runs)) r).
Proof. exact completed_once. Qed.
Print Assumptions C28_exactly_once.

Definition all_keep (_ : relation) (_ : member) : bool := true.
Definition all_want (_ : otype) : bool := true.
Definition first_pass (rs : list relation) : asm :=
  r_handler (fst (parse (pass1 (fun _ => true) all_keep isort) [(RELATION, map ORel rs)] None (asm_new all_want))).
(** Finding: a relation without members to keep is never completed. *)
Theorem C28_no_members_refuted : exists r runs a' es, sorted_file runs /\
  (forall m, In m (r_members r) -> all_keep r m = true -> exists o, In o (flat_map snd runs) /\ names m o = true) /\
  pass2_all all_want (file_calls runs) (first_pass [r]) = Ok (a', es) /\ forall e, In e (List.concat es) -> ~ completes 0 e.
Proof.
  exists (rel 1 "x" []), [(NODE, [n_ 1])]. eexists. eexists. split; [|split; [|split; [reflexivity|]]].
  - split; [repeat constructor; intros []|]. split; [|repeat constructor; intros []].
    intros r [<-|[]]. split; [left; reflexivity|]. intros o [<-|[]]. reflexivity.
  - intros m [].
  - cbn. intros e H (r & ms & ->). intuition discriminate.
Qed.
Print Assumptions C28_no_members_refuted.
(** Finding: a relation with a kept member of unknown type is never completed although every node,
    way and relation it names is there. *)
Theorem C28_unknown_member_refuted : exists r runs a' es,
  (forall m, In m (r_members r) -> In (m_type m) ["n"; "w"; "r"]%char -> exists o, In o (flat_map snd runs) /\ names m o = true) /\
  pass2_all all_want (file_calls runs) (first_pass [r]) = Ok (a', es) /\ forall e, In e (List.concat es) -> ~ completes 0 e.
Proof.
  exists (rel 1 "x" [("n", 1); ("x", 0)]%char), [(NODE, [n_ 1])]. eexists. eexists. split; [|split; [reflexivity|]].
  - intros m [<-|[<-|[]]]; cbn.
    + intros _. exists (n_ 1). split; auto.
    + intuition discriminate.
  - cbn. intros e H (r & ms & ->). intuition discriminate.
Qed.
Print Assumptions C28_unknown_member_refuted.
(** Finding: an object that occurs twice in the second pass (a history file, say) dereferences
    a null pointer, or completes a relation too early. *)
Theorem C28_repeated_object_refuted : exists r0 os0,
  pass2_all all_want (CBefore NODE :: map CObj os0) (first_pass [r0]) = UB /\
  (exists r os a' es e, pass2_all all_want (map CObj os) (first_pass [r]) = Ok (a', es) /\
     In e (List.concat es) /\ completes 0 e /\ ~ complete_with all_keep os r).
Proof.
  exists (rel 1 "x" [("n", 1)]%char), [n_ 1; n_ 1]. split.
  - reflexivity.
  - exists (rel 1 "x" [("n", 1); ("n", 2)]%char), [n_ 1; n_ 1]. eexists. eexists. eexists. split; [reflexivity|].
    split; [cbn; right; left; reflexivity|]. split; [eexists; eexists; reflexivity|].
    intros [_ H]. destruct (H (mkMember "n" 2 "") (or_intror (or_introl eq_refl)) eq_refl) as (o & [<-|[<-|[]]] & C); discriminate C.
Qed.
Print Assumptions C28_repeated_object_refuted.
(** Finding: objects of a type that comes in two runs are lost after the first run. *)
Theorem C28_unsorted_refuted : exists r runs a' es,
  complete_with all_keep (flat_map snd runs) r /\ (forall g, In g runs -> well_typed g) /\
  pass2_all all_want (file_calls runs) (first_pass [r]) = Ok (a', es) /\ forall e, In e (List.concat es) -> ~ completes 0 e.
Proof.
  exists (rel 1 "x" [("n", 2)]%char), [(NODE, [n_ 1]); (WAY, [w_ 1 [1]]); (NODE, [n_ 2])]. eexists. eexists.
  split; [|split; [|split; [reflexivity|]]].
  - split; [eexists; split; [left; reflexivity|reflexivity]|]. intros m [<-|[]] _. exists (n_ 2). split; [cbn; auto|reflexivity].
  - intros g [<-|[<-|[<-|[]]]]; (split; [cbn; unfold object_type; tauto|]); intros o [<-|[]]; reflexivity.
  - cbn. intros e H (r & ms & ->). intuition discriminate.
Qed.
Print Assumptions C28_unsorted_refuted.
Example C28_ex : exists a' es,
  let r1 := rel 1 "x" [("n", 7); ("w", 3); ("n", 7)]%char in
  let r2 := rel 2 "x" [("n", 7)]%char in
  sorted_file [(NODE, [n_ 6; n_ 7]); (WAY, [w_ 3 [6; 7]])] /\
  pass2_all all_want (file_calls [(NODE, [n_ 6; n_ 7]); (WAY, [w_ 3 [6; 7]])]) (first_pass [r1; r2]) = Ok (a', es) /\
  nth 3 es [] = [EComplete 1 r2 [Some (n_ 7)]; ENext (CObj (n_ 7))] /\
  nth 6 es [] = [EComplete 0 r1 [Some (n_ 7); Some (w_ 3 [6; 7]); Some (n_ 7)]; ENext (CObj (w_ 3 [6; 7]))].
Proof.
  eexists. eexists. cbn zeta. split.
  - split; [repeat constructor; cbn; intuition discriminate|]. split.
    + intros g [<-|[<-|[]]]; (split; [cbn; unfold object_type; tauto|]); intros o Ho; cbn in Ho; intuition (subst; reflexivity).
    + unfold no_repeats. cbn. repeat constructor; cbn; intuition discriminate.
  - split; [reflexivity|]. split; reflexivity.
Qed.

(* ---- C29 ---- *)
Theorem C29_slots : forall select keep want srt gs runs,
  sorts srt -> (forall g, In g gs -> well_typed g) -> sorted_file runs ->
  let a := r_handler (fst (parse (pass1 select keep srt) gs None (asm_new want))) in
  forall a' es, pass2_all want (file_calls runs) a = Ok (a', es) ->
  forall j r ms, In (EComplete j r ms) (List.concat es) ->
    List.length ms = List.length (r_members r) /\
    forall i m, nth_error (r_members r) i = Some m ->
      (keep r m = true -> exists o, nth_error ms i = Some (Some o) /\ right_object m o /\ In o (flat_map snd runs)) /\
      (keep r m = false -> nth_error ms i = Some None).
Proof. exact member_slots. Qed.
Print Assumptions C29_slots.
Example C29_ex : exists a' es, let r := rel 1 "x" [("n", 7); ("w", 3)]%char in
  pass2_all (fun t => match t with WAY => true | _ => false end) (file_calls [(NODE, [n_ 7]); (WAY, [w_ 3 [7]])])
    (r_handler (fst (parse (pass1 (fun _ => true) mp_keep isort) [(RELATION, [ORel r])] None (asm_new (fun t => match t with WAY => true | _ => false end)))))
    = Ok (a', es) /\ In (EComplete 0 r [None; Some (w_ 3 [7])]) (List.concat es).
Proof. eexists. eexists. cbn zeta. split; [reflexivity|]. cbn. tauto. Qed.

(* ---- C30 ---- *)
Theorem C30_decisions : forall build, (forall r ms, exists l, build r ms = Ok l) -> forall srt gs runs,
  sorts srt -> (forall g, In g gs -> well_typed g) -> sorted_file runs ->
  (forall w, In (OWay w) (flat_map snd runs) -> way_ok w) ->
  let a := r_handler (fst (parse (pass1 mp_select mp_keep srt) gs None (asm_new mp_want))) in
  exists a' outs, mp_all build (file_calls runs) a = Ok (a', outs) /\ List.length outs = List.length (file_calls runs) /\
    forall p c q, file_calls runs = p ++ c :: q -> mp_output build (first_relations gs) p c (nth (List.length p) outs []).
Proof. exact multipolygon_decisions. Qed.
Print Assumptions C30_decisions.
Theorem C30_selected : forall r, mp_select r = true <-> is_multipolygon r.
Proof. exact mp_select_spec. Qed.
Print Assumptions C30_selected.
(** Finding: a way without nodes that is in no relation is undefined behaviour. *)
Theorem C30_empty_way_refuted : exists w, w_nodes w = [] /\
  forall build a, mp_all build [CObj (OWay w)] (mkAsm a [] [] [] 1) = UB.
Proof. exists (mkWay (at_ 1) []). split; reflexivity. Qed.
Print Assumptions C30_empty_way_refuted.
Example C30_ex : exists a' outs,
  mp_all (fun r _ => Ok [tat 9 "built"]) (file_calls [(WAY, [w_ 3 [1; 2; 3; 1]; w_ 4 [1; 2; 3; 1]; w_ 5 [1; 2; 1]; w_ 6 [1; 2; 3; 4]])])
    (r_handler (fst (parse (pass1 mp_select mp_keep isort)
       [(RELATION, [ORel (rel 1 "boundary" [("w", 4); ("n", 1)]%char); ORel (rel 2 "route" [("w", 3)]%char)])] None (asm_new mp_want)))) = Ok (a', outs) /\
  outs = [[CInit]; [CBefore WAY]; [CArea (at_ 6); CObj (w_ 3 [1; 2; 3; 1])]; [CArea (tat 9 "built"); CObj (w_ 4 [1; 2; 3; 1])];
          [CObj (w_ 5 [1; 2; 1])]; [CObj (w_ 6 [1; 2; 3; 4])]; [CAfter WAY]; [CFinal]].
Proof. eexists. eexists. split; [reflexivity|]. reflexivity. Qed.

(** Proofs about osmjs: options, loading of scripts, the calls a script gets. *)
From Verif Require Import Base.Prelude Model.Osm Model.Store Model.Handler Model.Assembler Model.OsmFile Model.Osmjs
  Spec.OsmSpec Spec.HandlerSpec Spec.AssemblerSpec Spec.OsmjsSpec Proofs.HandlerProofs Proofs.Handler2Proofs Proofs.AssemblerProofs.

(* ---- options ---- *)
Lemma find_last_has : forall c s, match find_last c s with None => has_char c s = false | Some _ => has_char c s = true end.
Proof.
  intros c s. induction s as [|d r IH]; [reflexivity|]. cbn [find_last has_char].
  destruct (find_last c r) as [n|]; [rewrite IH; now rewrite Bool.orb_true_r|]. rewrite IH, Bool.orb_false_r.
  rewrite Ascii.eqb_sym. destruct (Ascii.eqb c d); reflexivity.
Qed.
Lemma search_find : forall readable path f, search readable path f = find readable (map (fun d => d ++ "/" ++ f)%string path).
Proof.
  intros readable path f. induction path as [|d r IH]; [reflexivity|]. cbn [search map find]. destruct (readable _); auto.
Qed.
Lemma find_existsb : forall A (f : A -> bool) l, existsb f l = match find f l with Some _ => true | None => false end.
Proof. intros A f l. induction l as [|x r IH]; [reflexivity|]. cbn [existsb find]. destruct (f x); auto. Qed.
Section Options.
  Variable readable : string -> bool.
  Variable home : option string.
  Lemma include_spec : forall f, find_include_file readable home f =
    match home with
    | None => Undef
    | Some h => match find readable (places h f) with Some p => Go p | None => Exit 1 end
    end.
  Proof.
    intros f. unfold find_include_file, places. destruct home as [h|]; [|reflexivity]. cbv zeta.
    rewrite search_find. pose proof (find_last_has "." f) as H. destruct (find_last "." f); rewrite H; reflexivity.
  Qed.
  Theorem include_first : forall h f p, home = Some h ->
    (find_include_file readable home f = Go p <->
     exists l1 l2, places h f = l1 ++ p :: l2 /\ readable p = true /\ forall q, In q l1 -> readable q = false).
  Proof.
    intros h f p Hh. rewrite include_spec, Hh. remember (places h f) as l eqn:E. clear E. split.
    - induction l as [|x r IH]; cbn [find]; [discriminate|]. destruct (readable x) eqn:R.
      + intros H; injection H as <-. exists [], r. repeat split; auto. intros q [].
      + intros H. destruct (IH H) as (l1 & l2 & -> & Hp & Hq). exists (x :: l1), l2. repeat split; auto. intros q [<-|Hin]; auto.
    - intros (l1 & l2 & -> & Hp & Hq). induction l1 as [|x r IH]; cbn [app find]; [now rewrite Hp|].
      rewrite (Hq x) by now left. apply IH. intros q Hin. apply Hq. now right.
  Qed.
  Lemma location_spec : forall s, location_of s = store_named s.
  Proof.
    intros s. unfold location_of, store_named, store_names. cbn [find fst].
    destruct (String.eqb_spec s "none"); [subst; reflexivity|].
    destruct (String.eqb_spec s "array"); [subst; reflexivity|].
    destruct (String.eqb_spec s "disk"); [subst; reflexivity|].
    destruct (String.eqb_spec s "vector"); [subst; reflexivity|].
    destruct (String.eqb_spec s "sparsetable"); [subst; reflexivity|].
    destruct (String.eqb_spec "none" s); [congruence|].
    destruct (String.eqb_spec "array" s); [congruence|].
    destruct (String.eqb_spec "disk" s); [congruence|].
    destruct (String.eqb_spec "sparsetable" s); [congruence|].
    destruct (String.eqb_spec "vector" s); [congruence|]. reflexivity.
  Qed.
  Definition over (c : config) (os : list opt) : config :=
    mkCfg (c_two c || (has_opt OTwo os || has_opt OMulti os)) (c_repair c && negb (has_opt ONoRepair os))
      (last (choose script_of os) (c_js c)) (c_includes c ++ choose (included readable home) os)
      (last (choose store_of os) (c_store c)) (c_debug c || has_opt ODebug os) (c_multi c || has_opt OMulti os).
  Lemma last_cons2 : forall A (x : A) l d, last (x :: l) d = last l x.
  Proof. intros A x l. revert x. induction l as [|y r IH]; intros x d; [reflexivity|]. change (last (y :: r) d = last (y :: r) x). now rewrite !IH. Qed.
  Lemma loop_spec : forall os c, options_loop readable home c os =
    match first_some (fatal readable home) os with
    | Some (Some k) => Exit k
    | Some None => Undef
    | None => Go (over c os)
    end.
  Proof.
    induction os as [|o r IH]; intros c.
    - cbn. unfold over. cbn. rewrite !Bool.orb_false_r, Bool.andb_true_r, app_nil_r. now destruct c.
    - cbn [options_loop first_some]. destruct c as [tw rp js inc st db mu].
      destruct o as [|f|f| |s| | | |]; cbn [option_step fatal gbind c_two c_repair c_js c_includes c_store c_debug c_multi]; try reflexivity;
        try (rewrite IH; destruct (first_some (fatal readable home) r) as [[k|]|]; try reflexivity; unfold over;
             cbn [c_two c_repair c_js c_includes c_store c_debug c_multi has_opt existsb is_opt choose flat_map script_of included store_of app];
             unfold has_opt; destruct tw, rp, db, mu, (existsb (is_opt OTwo) r), (existsb (is_opt OMulti) r), (existsb (is_opt ONoRepair) r), (existsb (is_opt ODebug) r); reflexivity).
      + rewrite include_spec. destruct home as [h|] eqn:E; [|reflexivity]. rewrite find_existsb.
        destruct (find readable (places h f)) as [p|] eqn:Fp; [|reflexivity]. cbn [gbind]. rewrite IH.
        destruct (first_some (fatal readable (Some h)) r) as [[k|]|]; try reflexivity. unfold over.
        cbn [c_two c_repair c_js c_includes c_store c_debug c_multi has_opt existsb is_opt choose flat_map script_of included store_of app].
        rewrite E, Fp. cbn [app]. rewrite <- app_assoc. reflexivity.
      + rewrite IH. destruct (first_some (fatal readable home) r) as [[k|]|]; try reflexivity. unfold over.
        cbn [c_two c_repair c_js c_includes c_store c_debug c_multi has_opt existsb is_opt choose flat_map script_of included store_of app].
        now rewrite last_cons2.
      + rewrite location_spec. destruct (store_named s) as [l|] eqn:El; [|reflexivity]. cbn [gbind]. rewrite IH.
        destruct (first_some (fatal readable home) r) as [[k|]|]; try reflexivity. unfold over.
        cbn [c_two c_repair c_js c_includes c_store c_debug c_multi has_opt existsb is_opt choose flat_map script_of included store_of app].
        rewrite El. cbn [app]. now rewrite last_cons2.
  Qed.
  Theorem options_thm : forall os rest, options readable home os rest = options_spec readable home os rest.
  Proof.
    intros os rest. unfold options, options_spec. rewrite loop_spec.
    destruct (first_some (fatal readable home) os) as [[k|]|]; try reflexivity. cbn [gbind].
    replace (over config_new os) with (meaning readable home os) by reflexivity.
    unfold meaning at 1. cbn [c_js].
    destruct rest as [|file args]; [destruct (String.eqb _ _); reflexivity|].
    cbn [meaning c_js c_two c_multi c_store].
    destruct (String.eqb _ ""); [reflexivity|]. destruct ((_ || _) && _)%bool; [reflexivity|].
    destruct (has_opt OMulti os); [|reflexivity]. destruct (last (choose store_of os) LNone); reflexivity.
  Qed.
End Options.

(* ---- scripts ---- *)
Section Js.
  Context {S F : Type}.
  Variable load : string -> option string.
  Variable boot : bool -> list string -> S.
  Variable eval : string -> S -> option S.
  Variable func : string -> S -> option F.
  Variable invoke : F -> this -> S -> S * bool.

  Lemma loads_app : forall a b s s2, loads load eval (a ++ b) s s2 <-> exists s1, loads load eval a s s1 /\ loads load eval b s1 s2.
  Proof.
    induction a as [|f r IH]; intros b s s2; cbn [app].
    - split; [intros H; exists s; split; [constructor|exact H]|intros (s1 & H1 & H2); inversion H1; now subst].
    - split.
      + intros H. inversion H as [|? ? src ? s1 ? L E R]; subst. apply IH in R as (s3 & R1 & R2). exists s3. split; [econstructor; eauto|exact R2].
      + intros (s3 & H1 & H2). inversion H1 as [|? ? src ? s1 ? L E R]; subst. econstructor; eauto. apply IH. eauto.
  Qed.
  Lemma run_files_spec : forall fs s, (forall s', run_files load eval fs s = Go s' <-> loads load eval fs s s') /\
    (run_files load eval fs s = Exit 1 \/ exists s', run_files load eval fs s = Go s').
  Proof.
    induction fs as [|f r IH]; intros s; cbn [run_files].
    - split; [|eauto]. intros s'. split; [intros H; injection H as <-; constructor|intros H; inversion H; reflexivity].
    - unfold run_file. destruct (load f) as [src|] eqn:L.
      + destruct (eval (c_string src) s) as [s1|] eqn:E; cbn [gbind].
        * destruct (IH s1) as [A B]. split; [|exact B]. intros s'. rewrite A. split; [intros H; econstructor; eauto|].
          intros H. inversion H as [|? ? src' ? s1' ? L' E' R]; subst. congruence.
        * split; [|now left]. intros s'. split; [discriminate|]. intros H. inversion H as [|? ? src' ? s1' ? L' E' R]; subst. congruence.
      + cbn [gbind]. split; [|now left]. intros s'. split; [discriminate|]. intros H. inversion H as [|? ? src' ? s1' ? L' E' R]; subst. congruence.
  Qed.
  Lemma run_script_spec : forall f s, (forall s', run_script load eval f s = Go s' <-> loads load eval [f] s s' /\ load f <> Some ""%string) /\
    (run_script load eval f s = Exit 1 \/ exists s', run_script load eval f s = Go s').
  Proof.
    intros f s. unfold run_script. destruct (load f) as [[|c src]|] eqn:L.
    - split; [|now left]. intros s'. split; [discriminate|]. intros [_ H]. congruence.
    - destruct (eval (c_string (String c src)) s) as [s1|] eqn:E.
      + split; [|eauto]. intros s'. split.
        * intros H; injection H as <-. split; [|discriminate]. econstructor; eauto. constructor.
        * intros [H _]. inversion H as [|? ? src' ? s1' ? L' E' R]; subst. inversion R; subst. congruence.
      + split; [|now left]. intros s'. split; [discriminate|]. intros [H _]. inversion H as [|? ? src' ? s1' ? L' E' R]; subst. congruence.
    - split; [|now left]. intros s'. split; [discriminate|]. intros [H _]. inversion H as [|? ? src' ? s1' ? L' E' R]; subst. congruence.
  Qed.
  Theorem load_thm : forall args includes f,
    (forall cb s, js_new load boot eval func args includes f = Go (cb, s) <->
       loads load eval (includes ++ [f]) (boot false args) s /\ load f <> Some ""%string /\ cb = callbacks func s) /\
    (js_new load boot eval func args includes f = Exit 1 \/ exists q, js_new load boot eval func args includes f = Go q).
  Proof.
    intros args includes f. unfold js_new. change (1 <=? 0) with false.
    destruct (run_files_spec includes (boot false args)) as [A B].
    destruct B as [B|[s1 B]]; rewrite B; cbn [gbind].
    - split; [|now left]. intros cb s. split; [discriminate|]. intros (H & _). apply loads_app in H as (s1 & H & _). apply A in H. congruence.
    - destruct (run_script_spec f s1) as [C D]. split.
      + intros cb s. split.
        * destruct (run_script load eval f s1) as [k| |s2] eqn:E; try discriminate. cbn [gbind]. intros H; injection H as <- <-.
          destruct (proj1 (C s2) eq_refl) as [L N]. split; [|now split]. apply loads_app. exists s1. split; [now apply A|exact L].
        * intros (H & N & ->). apply loads_app in H as (s2 & H1 & H2). apply A in H1. assert (s2 = s1) by congruence. subst s2.
          rewrite (proj2 (C s)) by now split. reflexivity.
      + destruct D as [D|[s2 D]]; rewrite D; cbn [gbind]; [now left|]. right. eauto.
  Qed.

  (* ---- calls ---- *)
  Lemma js_all_spec : forall s0 cs s, js_all invoke (callbacks func s0) cs s = play invoke (js_calls (fun n => func n s0) cs) s.
  Proof.
    intros s0 cs. unfold js_all, play, js_calls, choose. induction cs as [|c r IH]; intros s; [reflexivity|].
    cbn [fold_left flat_map]. rewrite IH, fold_left_app. f_equal.
    destruct c as [|t|o|t|a|]; cbn [js_step js_name fst];
      try (destruct t; cbn; try reflexivity; match goal with |- context [func ?n s0] => destruct (func n s0) end; reflexivity);
      try (destruct o; cbn; match goal with |- context [func ?n s0] => destruct (func n s0) end; reflexivity);
      cbn; match goal with |- context [func ?n s0] => destruct (func n s0) end; reflexivity.
  Qed.
  Lemma js_takes : forall cb cs s, takes (js_step invoke cb) cs s (js_all invoke cb cs s).
  Proof.
    intros cb cs. induction cs as [|c r IH]; intros s; [reflexivity|]. apply takes_cons. eexists. split; [reflexivity|]. apply IH.
  Qed.
  Lemma js_all_app : forall cb a b s, js_all invoke cb (a ++ b) s = js_all invoke cb b (js_all invoke cb a s).
  Proof. intros. unfold js_all. apply fold_left_app. Qed.

  (* ---- passes ---- *)
  Context {P N : Type}.
  Variable pset : Z -> position -> P -> outcome P.
  Variable pget : Z -> P -> outcome position.
  Variable nset : Z -> position -> N -> outcome N.
  Variable nget : Z -> N -> outcome position.
  Definition objects_of (cs : list callback) : list object := flat_map (fun c => match c with CObj o => [o] | _ => [] end) cs.
  Notation cfw := (cfw_run pset pget nset nget).
  Fixpoint refill (cs : list callback) (os : list object) : list callback :=
    match cs with
    | [] => []
    | CObj o :: r => match os with x :: os' => CObj x :: refill r os' | [] => CObj o :: refill r [] end
    | c :: r => c :: refill r os
    end.
  Lemma refill_located : forall dflt cs seen, refill cs (located_stream seen (objects_of cs) dflt) = located_calls dflt seen cs.
  Proof.
    intros dflt. induction cs as [|c r IH]; intros seen; [reflexivity|].
    destruct c; cbn [objects_of flat_map app located_stream refill located_calls]; fold (objects_of r); now rewrite IH.
  Qed.
  Lemma obind_Ok : forall A B (x : outcome A) (f : A -> outcome B) b, obind x f = Ok b -> exists a, x = Ok a /\ f a = Ok b.
  Proof. intros A B [a|e| |] f b H; cbn in H; try discriminate. eauto. Qed.
  Lemma located_takes : forall cb cs pn pn' os s, cfw (objects_of cs) pn = Ok (os, pn') ->
    takes (located_js invoke pset pget nset nget cb) cs (pn, s) (pn', js_all invoke cb (refill cs os) s).
  Proof.
    intros cb. induction cs as [|c r IH]; intros pn pn' os s H.
    - cbn in H. injection H as <- <-. reflexivity.
    - apply takes_cons. destruct c as [|t|o|t|a|];
        try (eexists; split; [reflexivity|]; cbn [refill]; apply (IH _ _ _ _ H)).
      cbn [objects_of flat_map app cfw_run] in H. fold (objects_of r) in H.
      apply obind_Ok in H as ([o' pn1] & E1 & H). apply obind_Ok in H as ([os' pn2] & E2 & H). injection H as <- <-.
      cbn [fst snd] in *. cbn [located_js fst snd refill]. rewrite E1. eexists. split; [reflexivity|]. apply (IH _ _ _ _ E2).
  Qed.
  Variable build : bool -> relation -> list (option object) -> outcome (list attrs).
  Lemma mp_takes : forall cb rep cs pn pn' os a a' outs s, cfw (objects_of cs) pn = Ok (os, pn') ->
    mp_all (build rep) (refill cs os) a = Ok (a', outs) ->
    takes (located_mp invoke pset pget nset nget build cb rep) cs (pn, a, s) (pn', a', js_all invoke cb (List.concat outs) s).
  Proof.
    intros cb rep. induction cs as [|c r IH]; intros pn pn' os a a' outs s H M.
    - cbn in H, M. injection H as <- <-. injection M as <- <-. reflexivity.
    - apply takes_cons.
      assert (G : forall c' os' pn1, cfw (objects_of r) pn1 = Ok (os', pn') -> mp_all (build rep) (c' :: refill r os') a = Ok (a', outs) ->
        (forall z, located_mp invoke pset pget nset nget build cb rep c (pn, a, s) = z ->
           z = match mp_pass2 (build rep) c' a with Ok (a', cs) => ((pn1, a', js_all invoke cb cs s), None) | x => ((pn, a, s), halt_of x) end) ->
        exists s1, located_mp invoke pset pget nset nget build cb rep c (pn, a, s) = (s1, None) /\
          takes (located_mp invoke pset pget nset nget build cb rep) r s1 (pn', a', js_all invoke cb (List.concat outs) s)).
      { intros c' os' pn1 H1 M1 Z. cbn [mp_all] in M1. apply obind_Ok in M1 as ([a1 e] & Ea & M1). apply obind_Ok in M1 as ([a2 es] & Eb & M1).
        injection M1 as <- <-. specialize (Z _ eq_refl). rewrite Ea in Z. rewrite Z. eexists. split; [reflexivity|].
        cbn [List.concat]. rewrite js_all_app. eapply IH; eauto. }
      destruct c as [|t|o|t|x|]; try (apply (G _ os pn H M); intros z <-; reflexivity).
      cbn [objects_of flat_map app cfw_run] in H. fold (objects_of r) in H.
      apply obind_Ok in H as ([o' pn1] & E1 & H). apply obind_Ok in H as ([os' pn2] & E2 & H). injection H as <- <-.
      cbn [fst snd refill] in *. apply (G (CObj o') os' pn1 E2 M). intros z <-. cbn [located_mp]. rewrite E1. reflexivity.
  Qed.
End Js.

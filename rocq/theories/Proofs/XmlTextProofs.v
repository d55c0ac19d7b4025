(** The writer and the parser of Spec/XmlText.v fit together. *)
From Verif Require Import Base.Prelude Base.Decimal Model.Osm Model.Handler Model.Xml Spec.XmlSpec Spec.XmlText Proofs.XmlReadProofs.

(* ---- what the writer writes ---- *)
Fixpoint attrs_text (a : xattrs) : string := match a with [] => ""%string | (k, v) :: r => (attr_text k v ++ attrs_text r)%string end.
Fixpoint text_of (x : xml) : string :=
  match x with
  | Elem n a kids =>
      ("<" ++ n ++ attrs_text a ++
       match kids with
       | [] => "/>"
       | _ => ">" ++ joined (map text_of kids) ++ "</" ++ n ++ ">"
       end)%string
  end.
Lemma all_succeed_app {L} (lib : L -> wcall -> L * bool) a : forall b l, all_succeed lib l (a ++ b) = match all_succeed lib l a with Some l' => all_succeed lib l' b | None => None end.
Proof. induction a as [|c a IH]; intros b l; [reflexivity|]. cbn [app all_succeed]. destruct (lib l c) as [l' [|]]; [apply IH|reflexivity]. Qed.
Lemma write_attrs a : forall o st, all_succeed tw_call (mkTw o st true) (map (fun kv => WAttr (fst kv) (snd kv)) a) = Some (mkTw (o ++ attrs_text a) st true).
Proof.
  induction a as [|[k v] r IH]; intros o st; cbn [map all_succeed tw_call tw_in_tag tw_out tw_open fst snd attrs_text].
  - rewrite sapp_nil_r. reflexivity.
  - rewrite IH, sapp_assoc. reflexivity.
Qed.
Definition gt (b : bool) : string := (if b then ">" else "")%string.
Lemma write_elem x : forall o st b, all_succeed tw_call (mkTw o st b) (calls_of x) = Some (mkTw (o ++ gt b ++ text_of x) st false).
Proof.
  induction x as [n a kids IH] using xml_ind'. intros o st b. cbn [calls_of]. cbn [all_succeed tw_call tw_in_tag tw_out tw_open].
  rewrite all_succeed_app, write_attrs, all_succeed_app. fold (gt b).
  assert (K : forall l o st b, Forall (fun x => forall o st b, all_succeed tw_call (mkTw o st b) (calls_of x) = Some (mkTw (o ++ gt b ++ text_of x) st false)) l ->
    all_succeed tw_call (mkTw o st b) (flat_map calls_of l) = Some (mkTw (o ++ match l with [] => "" | _ => gt b ++ joined (map text_of l) end) st (match l with [] => b | _ => false end))).
  { clear. induction l as [|x l IHl]; intros o st b F; [rewrite sapp_nil_r; reflexivity|]. inversion F as [|y z F1 F2]; subst. cbn [flat_map]. rewrite all_succeed_app, F1, (IHl _ _ _ F2).
    cbn [map joined]. destruct l; cbn [gt joined map]; rewrite ?sapp_nil_r, ?sapp_assoc; reflexivity. }
  rewrite (K kids _ _ _ IH). cbn [all_succeed tw_call tw_in_tag tw_out tw_open]. destruct kids as [|k r]; cbn [gt text_of]; rewrite ?sapp_nil_r, ?sapp_assoc; reflexivity.
Qed.

(* ---- what the parser makes of it ---- *)
Definition runs (p : xp) (s : string) (p' : xp) (es : list event) : Prop := xp_run p s = (p', es, true).
Lemma xp_run_app a : forall b p, xp_run p (a ++ b) = let '(p', es, ok) := xp_run p a in if ok then let '(p2, es', ok') := xp_run p' b in (p2, es ++ es', ok') else (p', es, false).
Proof.
  induction a as [|c a IH]; intros b p; cbn [String.append xp_run]; [destruct (xp_run p b) as [[? ?] ?]; reflexivity|].
  destruct (xp_step p c) as [[p' es]|]; [|reflexivity]. rewrite IH. destruct (xp_run p' a) as [[p2 es2] [|]]; [|reflexivity].
  destruct (xp_run p2 b) as [[p3 es3] ok]. rewrite app_assoc. reflexivity.
Qed.
Lemma runs_app p a p1 e1 b p2 e2 : runs p a p1 e1 -> runs p1 b p2 e2 -> runs p (a ++ b) p2 (e1 ++ e2).
Proof. unfold runs. intros A B. rewrite xp_run_app, A, B. reflexivity. Qed.
Lemma runs_step p c p1 e1 s p2 e2 : xp_step p c = Some (p1, e1) -> runs p1 s p2 e2 -> runs p (String c s) p2 (e1 ++ e2).
Proof. unfold runs. intros A B. cbn [xp_run]. rewrite A, B. reflexivity. Qed.
Lemma runs_step0 p c p1 s p2 e2 : xp_step p c = Some (p1, []) -> runs p1 s p2 e2 -> runs p (String c s) p2 e2.
Proof. intros A B. exact (runs_step p c p1 [] s p2 e2 A B). Qed.
Lemma runs_nil p : runs p "" p [].
Proof. reflexivity. Qed.
Lemma letter_is c : letter c -> is_letter c = true.
Proof. unfold letter, is_letter. lia. Qed.
Lemma snoc_app acc c s : (snoc acc c ++ s = acc ++ String c s)%string.
Proof. unfold snoc. rewrite sapp_assoc. reflexivity. Qed.
Lemma run_name st seen n : letters n -> forall acc, runs (mkXp st (MName acc) seen) n (mkXp st (MName (acc ++ n)) seen) [].
Proof.
  induction n as [|c r IH]; intros L acc; [rewrite sapp_nil_r; apply runs_nil|]. destruct L as [Lc Lr]. eapply runs_step0.
  - unfold xp_step. cbn [xp_mode]. rewrite (letter_is c Lc). reflexivity.
  - cbn [xp_stack xp_seen]. rewrite <- snoc_app. apply IH. exact Lr.
Qed.
Lemma run_attr_name st seen e a k : letters k -> forall acc, runs (mkXp st (MAttrName e a acc) seen) k (mkXp st (MAttrName e a (acc ++ k)) seen) [].
Proof.
  induction k as [|c r IH]; intros L acc; [rewrite sapp_nil_r; apply runs_nil|]. destruct L as [Lc Lr]. eapply runs_step0.
  - unfold xp_step. cbn [xp_mode]. rewrite (letter_is c Lc). reflexivity.
  - cbn [xp_stack xp_seen]. rewrite <- snoc_app. apply IH. exact Lr.
Qed.
Lemma run_end_name st seen n : letters n -> forall acc, runs (mkXp st (MEndName acc) seen) n (mkXp st (MEndName (acc ++ n)) seen) [].
Proof.
  induction n as [|c r IH]; intros L acc; [rewrite sapp_nil_r; apply runs_nil|]. destruct L as [Lc Lr]. eapply runs_step0.
  - unfold xp_step. cbn [xp_mode]. rewrite (letter_is c Lc). reflexivity.
  - cbn [xp_stack xp_seen]. rewrite <- snoc_app. apply IH. exact Lr.
Qed.
(** the bytes of a text *)
Fixpoint text_bytes (s : string) : Prop := match s with EmptyString => True | String c r => (In (byte c) [9; 10; 13] \/ 32 <= byte c) /\ text_bytes r end.
Lemma text_bytes_app a b : text_bytes a -> text_bytes b -> text_bytes (a ++ b).
Proof. induction a as [|c r IH]; intros A B; [exact B|]. destruct A. split; [assumption|]. apply IH; assumption. Qed.
Lemma xml_text_bytes s : xml_text s -> text_bytes s.
Proof.
  induction 1 as [|c s C _ IH]; [exact I|]. apply text_bytes_app; [|exact IH]. unfold continuation in *. inversion C; subst; cbn [text_bytes]; repeat split; try (right; unfold continuation in *; lia).
  destruct H as [H|H]; [left; exact H|right; lia].
Qed.
Lemma run_value st seen e a k v : text_bytes v -> forall acc, runs (mkXp st (MValue e a k acc) seen) (escape v) (mkXp st (MValue e a k (acc ++ v)) seen) [].
Proof.
  induction v as [|c r IH]; intros T acc; [cbn [escape]; rewrite sapp_nil_r; apply runs_nil|]. destruct T as [Tc Tr]. cbn [escape].
  rewrite <- snoc_app. change (@nil event) with (@nil event ++ []). eapply runs_app; [|apply IH; exact Tr]. clear IH Tr. unfold escape_char.
  destruct (Ascii.eqb_spec c "&") as [->|N1]; [reflexivity|]. destruct (Ascii.eqb_spec c "<") as [->|N2]; [reflexivity|]. destruct (Ascii.eqb_spec c ">") as [->|N3]; [reflexivity|].
  destruct (Ascii.eqb_spec c quote) as [->|N4]; [reflexivity|]. destruct (Ascii.eqb_spec c (chr 9)) as [->|N5]; [reflexivity|]. destruct (Ascii.eqb_spec c (chr 10)) as [->|N6]; [reflexivity|].
  destruct (Ascii.eqb_spec c (chr 13)) as [->|N7]; [reflexivity|].
  assert (B : forall n, (n < 256)%nat -> c <> chr n -> byte c <> Z.of_nat n).
  { intros n Hn N E. apply N. unfold byte in E. apply Nat2Z.inj in E. unfold chr. rewrite <- E. rewrite ascii_nat_embedding. reflexivity. }
  pose proof (B 9%nat ltac:(lia) N5) as B5. pose proof (B 10%nat ltac:(lia) N6) as B6. pose proof (B 13%nat ltac:(lia) N7) as B7.
  change (Z.of_nat 9) with 9 in B5. change (Z.of_nat 10) with 10 in B6. change (Z.of_nat 13) with 13 in B7.
  unfold runs. cbn [xp_run]. unfold xp_step. cbn [xp_mode]. apply Ascii.eqb_neq in N1, N2, N3, N4. rewrite N1, N2, N4.
  assert (32 <= byte c) as G by (destruct Tc as [[H|[H|[H|[]]]]|H]; lia).
  replace ((byte c =? 9) || (byte c =? 10) || (byte c =? 13)) with false by lia. replace (byte c <? 32) with false by lia. reflexivity.
Qed.
Lemma run_attr st seen e a k v : xml_name k -> text_bytes v -> ~ In k (map fst a) ->
  forall m, m = MAttrs e a \/ (m = MName e /\ a = []) -> runs (mkXp st m seen) (attr_text k v) (mkXp st (MAttrs e (a ++ [(k, v)])) seen) [].
Proof.
  intros [NE L] T NI m M. unfold attr_text. destruct k as [|c k]; [congruence|]. destruct L as [Lc Lk].
  assert (S1 : xp_step (mkXp st m seen) " " = Some (mkXp st (MAttrs e a) seen, [])) by (destruct M as [->|[-> ->]]; reflexivity).
  cbn [String.append]. eapply runs_step0; [exact S1|]. eapply runs_step0.
  { unfold xp_step. cbn [xp_mode]. rewrite (letter_is c Lc). reflexivity. }
  cbn [xp_stack xp_seen]. change (@nil event) with (@nil event ++ []). eapply runs_app; [apply run_attr_name; exact Lk|]. cbn [String.append].
  eapply runs_step0. { unfold xp_step. cbn [xp_mode]. rewrite (attr_none _ _ NI). reflexivity. }
  eapply runs_step0; [reflexivity|]. cbn [xp_stack xp_seen]. change (@nil event) with (@nil event ++ []). eapply runs_app; [apply run_value; exact T|].
  eapply runs_step0; [reflexivity|]. apply runs_nil.
Qed.
Lemma run_attrs st seen e l : forall a m, Forall (fun kv => xml_name (fst kv) /\ xml_text (snd kv)) l -> NoDup (map fst (a ++ l)) ->
  m = MAttrs e a \/ (m = MName e /\ a = []) ->
  exists m', runs (mkXp st m seen) (attrs_text l) (mkXp st m' seen) [] /\ (m' = MAttrs e (a ++ l) \/ (m' = MName e /\ a ++ l = [])).
Proof.
  induction l as [|[k v] r IH]; intros a m F ND M.
  - exists m. rewrite app_nil_r. split; [apply runs_nil|exact M].
  - inversion F as [|x y [N T] F']; subst. cbn [fst snd] in *.
    assert (NI : ~ In k (map fst a)). { rewrite map_app in ND. cbn [map fst] in ND. apply NoDup_remove_2 in ND. intros I. apply ND. apply in_app_iff. left. exact I. }
    destruct (IH (a ++ [(k, v)]) (MAttrs e (a ++ [(k, v)])) F') as (m' & R & M'); [rewrite <- app_assoc; exact ND|left; reflexivity|].
    exists m'. rewrite <- app_assoc in M'. split; [|exact M']. cbn [attrs_text]. change (@nil event) with (@nil event ++ []). eapply runs_app; [|exact R].
    apply run_attr; [exact N|apply xml_text_bytes; exact T|exact NI|exact M].
Qed.
Definition may_open (st : list string) (seen : bool) : Prop := st <> [] \/ seen = false.
Lemma opened_ok st m seen n a : may_open st seen -> 
  opened (mkXp st m seen) n a true = Some (mkXp st MText true, [EvStart n a; EvEnd n]) /\
  opened (mkXp st m seen) n a false = Some (mkXp (n :: st) MText true, [EvStart n a]).
Proof. unfold may_open, opened. cbn [xp_stack xp_seen]. intros [H| ->]; destruct st; try contradiction; split; reflexivity. Qed.
Lemma run_elem x : writable x -> forall st seen, may_open st seen -> runs (mkXp st MText seen) (text_of x) (mkXp st MText true) (events_of x).
Proof.
  induction x as [n a kids IH] using xml_ind'. intros W st seen O. inversion W as [n' a' k' [NE L] ND FA FK]; subst.
  cbn [text_of events_of]. cbn [String.append]. destruct n as [|c n]; [congruence|]. destruct L as [Lc Ln].
  eapply runs_step0; [reflexivity|]. cbn [String.append]. eapply runs_step0.
  { unfold xp_step. cbn [xp_mode]. pose proof (letter_is c Lc) as IL. unfold is_letter in IL.
    assert (Ascii.eqb c "/" = false) as ->. { apply Ascii.eqb_neq. intros ->. cbn in IL. discriminate. }
    assert (Ascii.eqb c "?" = false) as ->. { apply Ascii.eqb_neq. intros ->. cbn in IL. discriminate. }
    unfold is_letter. rewrite IL. reflexivity. }
  cbn [xp_stack xp_seen].
  match goal with |- runs _ _ _ ?es => change es with ([] ++ es) end. eapply runs_app; [apply run_name; exact Ln|].
  destruct (run_attrs st seen (String c n) a [] (MName (String c n)) FA ND (or_intror (conj eq_refl eq_refl))) as (m & R & M). cbn [app] in M.
  match goal with |- runs _ _ _ ?es => change es with ([] ++ es) end. eapply runs_app; [exact R|].
  destruct kids as [|k r].
  - cbn [flat_map app]. eapply runs_step0 with (p1 := mkXp st (MSlash (String c n) a) seen); [destruct M as [->|[-> ->]]; reflexivity|].
    change [EvStart (String c n) a; EvEnd (String c n)] with ([EvStart (String c n) a; EvEnd (String c n)] ++ []). eapply runs_step; [|apply runs_nil].
    unfold xp_step. cbn [xp_mode]. apply (opened_ok st _ seen (String c n) a O).
  - cbn [String.append]. change (EvStart (String c n) a :: flat_map events_of (k :: r) ++ [EvEnd (String c n)]) with ([EvStart (String c n) a] ++ (flat_map events_of (k :: r) ++ [EvEnd (String c n)])).
    eapply runs_step with (p1 := mkXp (String c n :: st) MText true).
    { destruct M as [->|[-> ->]]; unfold xp_step; cbn [xp_mode]; apply (opened_ok st _ seen (String c n) _ O). }
    assert (K : forall l st, Forall (fun x => writable x -> forall st seen, may_open st seen -> runs (mkXp st MText seen) (text_of x) (mkXp st MText true) (events_of x)) l ->
      Forall writable l -> st <> [] -> runs (mkXp st MText true) (joined (map text_of l)) (mkXp st MText true) (flat_map events_of l)).
    { clear. induction l as [|x l IHl]; intros st F W NE; [apply runs_nil|]. inversion F; subst. inversion W; subst. cbn [map joined flat_map]. eapply runs_app; [|apply IHl; assumption].
      match goal with H : writable x -> _ |- _ => apply H; [assumption|left; exact NE] end. }
    eapply runs_app; [apply K; [exact IH|exact FK|discriminate]|].
    eapply runs_step0; [reflexivity|]. eapply runs_step0; [reflexivity|]. cbn [xp_stack xp_seen]. change (String c (n ++ ">")) with (String c n ++ ">")%string.
    change [EvEnd (String c n)] with ([] ++ [EvEnd (String c n)]). eapply runs_app; [apply run_end_name; split; assumption|].
    cbn [String.append]. change [EvEnd (String c n)] with ([EvEnd (String c n)] ++ []). eapply runs_step; [|apply runs_nil].
    unfold xp_step. cbn [xp_mode xp_stack xp_seen]. rewrite String.eqb_refl. reflexivity.
Qed.
Lemma feeds_run bufs : forall p p' es, runs p (joined bufs) p' es -> xp_complete p' = true -> feeds xp_parse p bufs = (es, true).
Proof.
  induction bufs as [|b bufs IH]; intros p p' es R C; unfold runs in R.
  - cbn in R. injection R as <- <-. cbn [feeds]. unfold xp_parse. cbn [xp_run]. rewrite C. reflexivity.
  - cbn [joined] in R. rewrite xp_run_app in R. cbn [feeds]. unfold xp_parse. destruct (xp_run p b) as [[p1 e1] [|]]; [|discriminate]. cbn [negb orb andb].
    destruct (xp_run p1 (joined bufs)) as [[p2 e2] ok] eqn:E. injection R as <- <- ->. fold xp_parse. rewrite (IH p1 p2 e2 E C). reflexivity.
Qed.
Theorem xml_text_libraries : xml_libraries tw_call tw_free tw_out tw_new xp_parse xp_new.
Proof.
  intros x l1 l2 W S F. unfold tw_free in F. injection F as <-.
  change (all_succeed tw_call tw_new (WSetup :: calls_of x)) with (all_succeed tw_call (mkTw "<?xml version='1.0'?>" [] false) (calls_of x)) in S.
  rewrite write_elem in S. injection S as <-. cbn [tw_out gt]. intros bufs J NI. eapply feeds_run with (p' := mkXp [] MText true); [|reflexivity]. rewrite J. clear J.
  apply (runs_app xp_new "<?xml version='1.0'?>" xp_new [] (text_of x) _ (events_of x)); [reflexivity|].
  apply run_elem; [exact W|right; reflexivity].
Qed.

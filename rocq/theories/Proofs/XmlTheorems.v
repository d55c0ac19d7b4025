(** The theorems on XML files as stated in Props. *)
From Coq Require Import Reals Lra.
From Verif Require Import Base.Prelude Base.Decimal Model.Osm Model.Float Model.Time Model.Attr Model.OsmFile Model.Decfloat
  Model.Handler Model.Xml Spec.TimeSpec Spec.FloatSpec Spec.DecimalSpec Spec.AttrSpec Spec.HandlerSpec Spec.XmlSpec Spec.XmlText Spec.XmlExamples
  Proofs.HandlerProofs Proofs.XmlReadProofs Proofs.XmlWriteProofs Proofs.XmlFileProofs Proofs.XmlTextProofs.
From Verif Require Model.Pbf.

(* ---- C42 ---- *)
Lemma bounds_written b : bounds_in_range b -> Forall2 bounds_element (bounds_elems b) (bounds_listed b).
Proof.
  intros R. unfold bounds_elems, bounds_listed. destruct (bounds_defined b) eqn:D; [|constructor]. destruct (R D) as (H1 & H2 & H3 & H4 & _).
  constructor; [|constructor]. eexists. split; [reflexivity|]. unfold corners_described, coordinate_described. cbn [attr bounds_xattrs String.eqb Ascii.eqb Bool.eqb fst snd].
  assert (N : forall x, in_i32 x -> coordinate_near (printf_f 7 (fix_to_double x)) x).
  { intros x Hx. split; [exact Hx|]. exists (IZR x * precision)%R. split; [apply coord_decimal; exact Hx|]. rewrite Rminus_eq_0, Rabs_R0. unfold precision. lra. }
  repeat split; apply N; assumption.
Qed.
Theorem xml_written ft g b os : ft <> FtChange -> Forall in_range os -> bounds_in_range b -> exists bs es,
  xml_calls ft g b os = Ok (WSetup :: calls_of (Elem "osm" [("version", "0.6"); ("generator", g)]%string (bs ++ es))) /\
  Forall2 bounds_element bs (bounds_listed b) /\ Forall2 (fun e o => described false e (kept ft o)) es os.
Proof.
  intros N R B. assert (C : Pbf.ft_eqb ft FtChange = false) by (destruct ft; [reflexivity|reflexivity|congruence]).
  exists (bounds_elems b), (elems ft os). split; [apply xml_calls_plain; assumption|]. split; [apply bounds_written; exact B|].
  clear B. induction R as [|o r Ho Hr IH]; constructor; [|exact IH]. pose proof (object_kept ft o Ho) as K. unfold in_delete in K. rewrite C in K. exact K.
Qed.
Lemma exec_all {L} (lib : L -> wcall -> L * bool) cs : forall l l', all_succeed lib l cs = Some l' -> exec_calls lib l cs = (l', Ok tt).
Proof.
  induction cs as [|c r IH]; intros l l' E; cbn [exec_calls all_succeed] in *; [congruence|]. destruct (lib l c) as [l1 [|]]; [apply IH; exact E|discriminate].
Qed.
Theorem xml_text_roundtrip ft g b os : Forall in_range os -> Forall has_xml_texts os -> bounds_in_range b -> xml_text g ->
  exists w, write_xml tw_call tw_free tw_new ft g b os = (w, true, Ok tt) /\
  forall bufs, joined bufs = tw_out w -> ~ In ""%string bufs ->
  exists st, read_xml xp_parse xp_new (map Some bufs) = (st, Ok tt) /\
    x_groups st = announced (map (kept ft) os) /\ x_meta st = Pbf.mkMeta g (kept_bounds b).
Proof.
  intros R T B G. destruct (file_tree ft g b os R B) as (kids & C & _).
  set (x := Elem (root_name ft) (root_xattrs g) kids) in *.
  assert (S : all_succeed tw_call tw_new (WSetup :: calls_of x) = Some (mkTw ("<?xml version='1.0'?>" ++ text_of x) [] false)).
  { change (all_succeed tw_call (mkTw "<?xml version='1.0'?>" [] false) (calls_of x) = Some (mkTw ("<?xml version='1.0'?>" ++ text_of x) [] false)). apply write_elem. }
  exists (mkTw ("<?xml version='1.0'?>" ++ text_of x) [] false).
  assert (W : write_xml tw_call tw_free tw_new ft g b os = (mkTw ("<?xml version='1.0'?>" ++ text_of x) [] false, true, Ok tt)).
  { unfold write_xml. rewrite C, (exec_all _ _ _ _ S). reflexivity. }
  split; [exact W|]. exact (xml_roundtrip _ _ _ _ _ _ xml_text_libraries ft g b os _ R T B G W).
Qed.
(** an error of the library is passed on *)
Theorem xml_write_error {L} (lib : L -> wcall -> L * bool) free l ft g b os r : write_xml lib free l ft g b os = r ->
  snd r = Ok tt -> exists cs l1, xml_calls ft g b os = Ok cs /\ all_succeed lib l cs = Some l1 /\ fst r = free l1.
Proof.
  intros <-. unfold write_xml. destruct (xml_calls ft g b os) as [cs| | |]; try discriminate. destruct (exec_calls lib l cs) as [l1 [[]| | |]] eqn:E; try discriminate.
  destruct (free l1) as [l3 fl] eqn:F. intros _. exists cs, l1. split; [reflexivity|]. split; [apply exec_succeed; exact E|]. symmetry. exact F.
Qed.

(* ---- C43 ---- *)
Theorem xml_sections g b os : Forall in_range os -> bounds_in_range b -> exists bs (secs : list (string * list (xml * object))),
  xml_calls FtChange g b os = Ok (WSetup :: calls_of (Elem "osmChange" [("version", "0.6"); ("generator", g)]%string
    (bs ++ map (fun s => Elem (fst s) [] (map fst (snd s))) secs))) /\
  Forall2 bounds_element bs (bounds_listed b) /\
  flat_map (fun s => map snd (snd s)) secs = os /\
  Forall (fun s => snd s <> [] /\ Forall (fun eo => section_name (snd eo) = fst s /\
    described (negb (o_visible (obj_attrs (snd eo)))) (fst eo) (kept FtChange (snd eo))) (snd s)) secs /\
  alternate (map fst secs).
Proof.
  intros R B. destruct (xml_calls_change g b os R) as (secs & S & [G1 G2] & C).
  exists (bounds_elems b), (map (fun s => (fst s, map (fun o => (object_elem FtChange o, o)) (snd s))) secs).
  split; [|split; [apply bounds_written; exact B|split; [|split]]].
  - rewrite C. do 4 f_equal. f_equal. rewrite map_map. apply map_ext. intros [k xs]. unfold section_elem, elems. cbn [fst snd]. rewrite map_map. reflexivity.
  - rewrite <- S. rewrite flat_map_concat_map, flat_map_concat_map, map_map. f_equal. apply map_ext. intros [k xs]. cbn [snd]. rewrite map_map. apply map_id.
  - rewrite <- S in R. clear S C. induction G1 as [|[k xs] r [NE F] G IH]; [constructor|]. cbn [flat_map map fst snd] in *. apply Forall_app in R. destruct R as [R1 R2]. constructor.
    + cbn [fst snd]. split; [destruct xs; [contradiction|discriminate]|]. apply Forall_map. cbn [fst snd]. rewrite Forall_forall in *. intros o I. split; [apply F; exact I|].
      exact (object_kept FtChange o (R1 o I)).
    + apply IH; [exact R2|]. destruct r as [|[k2 xs2] r]; [exact I|]. apply G2.
  - rewrite map_map. exact G2.
Qed.
Theorem xml_visibility {L E} (lib : L -> wcall -> L * bool) free contents l0 (expat : E -> string -> bool -> E * list event * bool) e0 :
  xml_libraries lib free contents l0 expat e0 -> forall ft g b os l, ft <> FtOSM ->
  Forall in_range os -> Forall has_xml_texts os -> bounds_in_range b -> xml_text g ->
  write_xml lib free l0 ft g b os = (l, true, Ok tt) ->
  forall bufs, joined bufs = contents l -> ~ In ""%string bufs ->
  exists st, read_xml expat e0 (map Some bufs) = (st, Ok tt) /\
    map (fun o => (obj_id o, o_visible (obj_attrs o))) (flat_map snd (x_groups st)) = map (fun o => (obj_id o, o_visible (obj_attrs o))) os.
Proof.
  intros X ft g b os l N R T B G W bufs J NI. destruct (xml_roundtrip _ _ _ _ _ _ X ft g b os l R T B G W bufs J NI) as (st & E1 & E2 & _).
  exists st. split; [exact E1|]. rewrite E2. unfold announced. clear - N. induction os as [|o r IH]; [reflexivity|]. cbn [map flat_map app snd]. f_equal; [|exact IH].
  destruct o; destruct ft; try congruence; reflexivity.
Qed.

(* ---- C44 ---- *)
Theorem xml_reads {E} (expat : E -> string -> bool -> E * list event * bool) e text root a kids :
  readable_document root a kids -> parses expat e text (events_of (Elem root a kids)) ->
  forall bufs, joined bufs = text -> ~ In ""%string bufs ->
  exists st os, read_xml expat e (map Some bufs) = (st, Ok tt) /\ x_groups st = announced os /\
    Forall2 (fun de o => described (fst de) (snd de) o) (flat_map (objects_in false) kids) os /\ meta_described root a kids (x_meta st).
Proof.
  intros D P bufs J NI. destruct (document_read root a kids D) as (st & os & X & Rest). exists st, os. split; [|exact Rest].
  rewrite (read_xml_parses expat e text _ bufs P J NI). exact X.
Qed.
Lemma announced_objects os : flat_map snd (announced os) = os.
Proof. induction os as [|o r IH]; [reflexivity|]. cbn [announced flat_map app snd]. f_equal. exact IH. Qed.
Lemma otype_object o : object_type (obj_type o).
Proof. destruct o; [left|right; left|right; right]; reflexivity. Qed.
Lemma announced_typed os : forall g, In g (announced os) -> well_typed g.
Proof.
  intros g H. unfold announced in H. apply in_flat_map in H. destruct H as (o & _ & [<-|[<-|[]]]); (split; [apply otype_object|]); cbn [snd fst]; [intros x []|intros x [<-|[]]; reflexivity].
Qed.
Lemma recorder_takes cs : forall l, takes recorder cs l (l ++ cs).
Proof.
  unfold takes. induction cs as [|c r IH]; intros l; [rewrite app_nil_r; reflexivity|]. cbn [feed recorder]. rewrite IH, <- app_assoc. reflexivity.
Qed.
Lemma filter_bracket g : filter is_object_call (bracket g) = map CObj (snd g).
Proof. unfold bracket. cbn [filter is_object_call]. rewrite filter_app. cbn [filter is_object_call]. rewrite app_nil_r. induction (snd g) as [|x r IH]; [reflexivity|]. cbn. rewrite IH. reflexivity. Qed.
Lemma join_objects gs : flat_map snd (join gs) = flat_map snd gs.
Proof.
  induction gs as [|[t os] r IH]; [reflexivity|]. cbn [join flat_map snd]. rewrite <- IH. destruct (join r) as [|[t' os'] r']; [reflexivity|]. destruct (otype_eqb t t'); cbn [flat_map snd]; [rewrite app_assoc|]; reflexivity.
Qed.
Lemma filter_protocol gs : filter is_object_call (protocol gs) = map CObj (flat_map snd gs).
Proof.
  unfold protocol. cbn [filter is_object_call]. rewrite <- join_objects. induction (join gs) as [|g r IH]; [reflexivity|]. cbn [flat_map]. rewrite filter_app, filter_bracket, IH, map_app. reflexivity.
Qed.
Theorem announced_callbacks os : os <> [] ->
  exists cs, observe (parse recorder (announced os) None []) = (cs, cs, None) /\ filter is_object_call cs = map CObj os.
Proof.
  intros NE. exists (protocol (announced os) ++ [CFinal]). split.
  - rewrite (no_throw _ recorder (announced os) [] (protocol (announced os))); [reflexivity|destruct os; [congruence|discriminate]|apply announced_typed|]. apply (recorder_takes (protocol (announced os)) []).
  - rewrite filter_app. cbn [filter is_object_call]. rewrite app_nil_r, filter_protocol, announced_objects. reflexivity.
Qed.
(** reading ends without an exception only if all was read and found well-formed *)
Theorem xml_read_ok {E} (expat : E -> string -> bool -> E * list event * bool) reads : forall e st0 st, parse_loop expat reads e st0 = (st, Ok tt) ->
  exists bufs es, (reads = map Some bufs \/ exists rest, reads = map Some bufs ++ Some ""%string :: rest) /\ ~ In ""%string bufs /\
    feeds expat e bufs = (es, true) /\ x_events es st0 = (st, Ok tt).
Proof.
  induction reads as [|r reads IH]; intros e st0 st H; cbn [parse_loop] in H.
  - exists []. unfold parse_buffer in H. cbn [feeds]. destruct (expat e ""%string true) as [[e' evs] ok]. destruct (x_events evs st0) as [st' [[]|x| |]] eqn:X; cbn [snd] in H; try discriminate.
    destruct ok; [|discriminate]. exists evs. split; [left; reflexivity|]. split; [intros []|]. split; [reflexivity|]. congruence.
  - destruct r as [[|c buf]|]; [| |discriminate].
    + exists []. unfold parse_buffer in H. cbn [feeds]. destruct (expat e ""%string true) as [[e' evs] ok]. destruct (x_events evs st0) as [st' [[]|x| |]] eqn:X; cbn [snd] in H; try discriminate.
      destruct ok; [|discriminate]. exists evs. split; [right; exists reads; reflexivity|]. split; [intros []|]. split; [reflexivity|]. congruence.
    + unfold parse_buffer in H. destruct (expat e (String c buf) false) as [[e' evs] ok] eqn:X. destruct (x_events evs st0) as [st' [[]|x| |]] eqn:Y; try discriminate.
      destruct ok; [|discriminate]. destruct (IH e' st' st H) as (bufs & es & Hr & NI & F & Z). exists (String c buf :: bufs), (evs ++ es).
      split; [destruct Hr as [->|(rest & ->)]; [left; reflexivity|right; exists rest; reflexivity]|]. split; [intros [I|I]; [discriminate|apply NI; exact I]|].
      split; [cbn [feeds]; rewrite X, F; reflexivity|]. rewrite x_events_app, Y. exact Z.
Qed.
(** coordinates in examples *)
Lemma frac_readable sg neg ds fs n : sign_of sg neg -> number (ds ++ fs) n ->
  -2147483648 * 10 ^ Z.of_nat (String.length fs) <= (if neg then - n else n) * 10000000 <= 2147483647 * 10 ^ Z.of_nat (String.length fs) ->
  readable_coordinate (sg ++ ds ++ "." ++ fs).
Proof.
  intros S N H. eexists. split; [apply (DecfloatProofs.decimal_frac ""%string sg neg ds fs n I S N)|]. unfold coordinate_range, precision. destruct H as [H1 H2]. apply IZR_le in H1, H2. rewrite !mult_IZR in H1, H2.
  assert (P : (0 < IZR (10 ^ Z.of_nat (String.length fs)))%R) by (apply IZR_lt; lia). set (d := IZR (10 ^ Z.of_nat (String.length fs))) in *. set (v := IZR (if neg then - n else n)) in *.
  assert (E : (v = v / d * d)%R) by (field; lra). split; apply Rmult_le_reg_r with d; try lra; rewrite <- E; lra.
Qed.
Lemma int_readable sg neg ds n : sign_of sg neg -> number ds n -> -214 <= (if neg then - n else n) <= 214 -> readable_coordinate (sg ++ ds).
Proof.
  intros S N H. eexists. split; [apply (DecfloatProofs.decimal_int ""%string sg neg ds n I S N)|]. unfold coordinate_range, precision. destruct H as [H1 H2]. apply IZR_le in H1, H2. lra.
Qed.

(* ---- other versions ---- *)
Lemma root_version_rejected a v m : attr "version" a = Some v -> v <> "0.6"%string -> root_attrs a m = Throw ERuntime.
Proof.
  revert m. induction a as [|[n x] r IH]; intros m H N; [discriminate|]. cbn [attr root_attrs] in *. destruct (String.eqb n "version").
  - injection H as ->. destruct (String.eqb_spec v "0.6"); [congruence|reflexivity].
  - destruct (String.eqb n "generator"); apply IH; assumption.
Qed.
Lemma version_rejected_events root a v es : is_root_name root = true -> attr "version" a = Some v -> v <> "0.6"%string ->
  x_events (EvStart root a :: es) x_new = (x_new, Throw ERuntime).
Proof. intros R H N. cbn [x_events x_event]. unfold start_element. cbn [x_ctx x_new]. rewrite R, (root_version_rejected a v _ H N). reflexivity. Qed.
Lemma version_rejected {E} (expat : E -> string -> bool -> E * list event * bool) bufs : forall e root a v es ok,
  root = "osm"%string \/ root = "osmChange"%string -> attr "version" a = Some v -> v <> "0.6"%string -> ~ In ""%string bufs ->
  feeds expat e bufs = (EvStart root a :: es, ok) ->
  exists st, read_xml expat e (map Some bufs) = (st, Throw ERuntime) /\ x_groups st = [].
Proof.
  intros e root a v es ok R H N. assert (R' : is_root_name root = true) by (destruct R as [-> | ->]; reflexivity).
  unfold read_xml. revert e es ok. induction bufs as [|b r IH]; intros e es ok NE F; cbn [feeds map parse_loop] in *.
  - unfold parse_buffer. destruct (expat e ""%string true) as [[e' evs] ok']. injection F as -> ->.
    rewrite (version_rejected_events root a v es R' H N). exists x_new. split; reflexivity.
  - destruct b as [|c b]; [exfalso; apply NE; left; reflexivity|]. unfold parse_buffer. destruct (expat e (String c b) false) as [[e' evs] ok'].
    destruct evs as [|ev evs].
    + cbn [x_events]. destruct ok'; [|discriminate]. destruct (feeds expat e' r) as [evs' ok2] eqn:F2. cbn [app] in F. injection F as -> ->.
      apply (IH e' es ok); [intros I; apply NE; right; exact I|exact F2].
    + assert (ev = EvStart root a) as ->.
      { destruct ok'; [destruct (feeds expat e' r) as [evs' ok2]; cbn [app] in F; congruence|congruence]. }
      rewrite (version_rejected_events root a v evs R' H N). exists x_new. split; reflexivity.
Qed.

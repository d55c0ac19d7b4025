From Verif Require Import Base.Prelude Base.Decimal Model.OsmFile Spec.OsmFileSpec.

(* ---- names ---- *)
Lemma has_cons c a s : has c (String a s) <-> a = c \/ has c s.
Proof.
  split.
  - intros ([|x u] & v & E); cbn in E; injection E as -> E.
    + left; reflexivity.
    + right. exists u, v. exact E.
  - intros [-> | (u & v & ->)]; [exists ""%string, s; reflexivity | exists (String a u), v; reflexivity].
Qed.
Lemma has_nil c : ~ has c "".
Proof. intros ([|] & v & E); discriminate. Qed.
Lemma has_app c a b : has c (a ++ b) <-> has c a \/ has c b.
Proof.
  induction a as [|x a IH]; cbn [String.append].
  - split; [auto|]. intros [H|H]; [destruct (has_nil _ H)|exact H].
  - rewrite !has_cons, IH. tauto.
Qed.
Lemma find_first_none c s : find_first c s = None <-> ~ has c s.
Proof.
  induction s as [|a s IH]; cbn [find_first].
  - split; [intros _; apply has_nil|reflexivity].
  - rewrite has_cons. destruct (Ascii.eqb_spec a c).
    + split; [discriminate|tauto].
    + destruct (find_first c s); split; try discriminate; try reflexivity; intros H.
      * exfalso. assert (K : Some n0 = None) by (apply IH; tauto). discriminate K.
      * intros [E|E]; [congruence|]. apply IH in E; auto.
Qed.
Lemma find_first_app c a b : ~ has c a -> find_first c (a ++ String c b) = Some (String.length a).
Proof.
  induction a as [|x a IH]; intros H; cbn [String.append find_first String.length].
  - rewrite Ascii.eqb_refl. reflexivity.
  - rewrite has_cons in H. destruct (Ascii.eqb_spec x c); [tauto|]. rewrite IH by tauto. reflexivity.
Qed.
Lemma find_last_none c s : ~ has c s -> find_last c s = None.
Proof.
  induction s as [|a s IH]; intros H; cbn [find_last]; [reflexivity|]. rewrite has_cons in H.
  rewrite IH by tauto. destruct (Ascii.eqb_spec a c); [tauto|reflexivity].
Qed.
Lemma find_last_app c a b : ~ has c b -> find_last c (a ++ String c b) = Some (String.length a).
Proof.
  intros H. induction a as [|x a IH]; cbn [String.append find_last String.length].
  - rewrite find_last_none by exact H. rewrite Ascii.eqb_refl. reflexivity.
  - rewrite IH. reflexivity.
Qed.
Lemma drop_app a b : drop (String.length a) (a ++ b) = b.
Proof. induction a; cbn; auto. Qed.
Lemma take_app a b : take (String.length a) (a ++ b) = a.
Proof. induction a; cbn; congruence. Qed.
Lemma drop_S a c b : drop (S (String.length a)) (a ++ String c b) = b.
Proof. induction a; cbn in *; auto. Qed.
Lemma upto_first_split c s : exists rest, s = (upto_first c s ++ rest)%string /\ ~ has c (upto_first c s) /\ (rest = ""%string \/ exists r, rest = String c r).
Proof.
  unfold upto_first. induction s as [|a s IH]; cbn [find_first].
  - exists ""%string. split; [reflexivity|]. split; [apply has_nil|auto].
  - destruct (Ascii.eqb_spec a c) as [->|N].
    + exists (String c s). split; [reflexivity|]. split; [apply has_nil|eauto].
    + destruct (find_first c s) as [n|]; destruct IH as (rest & E & H & R); exists rest.
      * cbn [take String.append]. split; [congruence|]. split; [|exact R]. rewrite has_cons. tauto.
      * cbn [String.append]. split; [congruence|]. split; [|exact R]. rewrite has_cons. tauto.
Qed.
Lemma upto_first_app c a b : ~ has c a -> upto_first c (a ++ String c b) = a.
Proof. intros H. unfold upto_first. rewrite find_first_app by exact H. apply take_app. Qed.
Lemma upto_first_none c a : ~ has c a -> upto_first c a = a.
Proof. intros H. unfold upto_first. apply find_first_none in H. rewrite H. reflexivity. Qed.

Lemma splits_exists name : exists dir base, splits name dir base.
Proof.
  induction name as [|a s (dir & base & E & H & D)].
  - exists ""%string, ""%string. split; [reflexivity|]. split; [apply has_nil|auto].
  - destruct D as [-> | (d & ->)].
    + destruct (Ascii.ascii_dec a "/") as [->|N].
      * exists "/"%string, base. cbn in E. subst s. split; [reflexivity|]. split; [exact H|]. right. exists ""%string. reflexivity.
      * exists ""%string, (String a base). cbn in E. subst s. split; [reflexivity|]. split; [|auto]. rewrite has_cons. tauto.
    + exists (String a d ++ "/")%string, base. split; [cbn in *; congruence|]. split; [exact H|]. right. eauto.
Qed.
Lemma slash_index name dir base : splits name dir base ->
  match find_last "/" name with Some k => S k | None => O end = String.length dir /\ drop (String.length dir) name = base.
Proof.
  intros (-> & H & D). split; [|apply drop_app]. destruct D as [-> | (d & ->)].
  - cbn [String.append String.length]. rewrite find_last_none by exact H. reflexivity.
  - rewrite sapp_assoc. cbn [String.append]. rewrite find_last_app by exact H. rewrite sapp_length. cbn. lia.
Qed.
Lemma name_suffix_dot name dir stem suffix : splits name dir (stem ++ String "." suffix) -> ~ has "." stem -> name_suffix name = suffix.
Proof.
  intros S H. unfold name_suffix. destruct (slash_index _ _ _ S) as [E1 E2]. rewrite E1, E2, find_first_app by exact H.
  destruct S as (-> & _ & _).
  rewrite <- sapp_assoc. rewrite <- sapp_length. apply drop_S.
Qed.
Lemma name_suffix_nodot name dir base : splits name dir base -> ~ has "." base -> name_suffix name = name.
Proof.
  intros S H. unfold name_suffix. destruct (slash_index _ _ _ S) as [E1 E2]. rewrite E1, E2.
  apply find_first_none in H. rewrite H. reflexivity.
Qed.
Lemma suffix_means_set suffix : suffix_means suffix (set_type_and_encoding suffix).
Proof.
  unfold set_type_and_encoding, suffix_means.
  repeat match goal with |- context [String.eqb suffix ?x] => destruct (String.eqb_spec suffix x); [subst; left; cbn; tauto|] end.
  right. split; [|reflexivity]. cbn [map fst suffix_table]. cbn [In]. intuition congruence.
Qed.
Lemma suffix_means_fun suffix te : suffix_means suffix te -> te = set_type_and_encoding suffix.
Proof.
  intros [H | [H ->]].
  - cbn in H. repeat destruct H as [H|H]; try contradiction; injection H as <- <-; reflexivity.
  - destruct (suffix_means_set suffix) as [K | [_ K]]; [|symmetry; exact K].
    destruct H. apply in_map_iff. exists (suffix, set_type_and_encoding suffix). auto.
Qed.
Lemma is_url_spec name : is_url name = true <-> url name \/ name = "http"%string \/ name = "https"%string.
Proof.
  unfold is_url. destruct (upto_first_split ":" name) as (rest & E & H & R).
  rewrite orb_true_iff, !String.eqb_eq. split.
  - intros K. destruct R as [-> | (r & ->)].
    + rewrite sapp_nil_r in E. right. destruct K as [K|K]; rewrite K in E; auto.
    + left. exists r. destruct K as [K|K]; rewrite K in E; auto.
  - intros [(r & [-> | ->]) | [-> | ->]].
    + left. apply (upto_first_app ":" "http" r). vm_compute. intros ([|?[|?[|?[|?[|]]]]] & v & K); discriminate.
    + right. apply (upto_first_app ":" "https" r). vm_compute. intros ([|?[|?[|?[|?[|?[|]]]]]] & v & K); discriminate.
    + left. reflexivity.
    + right. reflexivity.
Qed.

Definition te_of (o : osmfile) := (of_type o, of_enc o).
Theorem type_from_suffix name dir stem suffix te : splits name dir (stem ++ String "." suffix) -> ~ has "." stem -> ~ url name ->
  suffix_means suffix te -> (of_type (osmfile_new name), of_enc (osmfile_new name)) = te.
Proof.
  intros S H U M. apply suffix_means_fun in M. subst te. unfold osmfile_new.
  assert (D : has "." name) by (destruct S as (-> & _); rewrite !has_app, has_cons; tauto).
  destruct (String.eqb_spec name "") as [->|_]; [destruct (has_nil _ D)|].
  destruct (String.eqb_spec name "-") as [->|_]; [destruct D as ([|?[|]] & v & K); discriminate|]. cbn [orb].
  destruct (is_url name) eqn:IU.
  { apply is_url_spec in IU as [IU | [-> | ->]]; [tauto| |]; exfalso; destruct D as ([|?[|?[|?[|?[|?[|]]]]]] & v & K); discriminate. }
  rewrite (name_suffix_dot _ _ _ _ S H). destruct (set_type_and_encoding suffix). reflexivity.
Qed.
Theorem type_without_suffix name dir base : splits name dir base -> ~ has "." base -> ~ url name ->
  ~ In name ["osm"; "osh"; "osc"; "http"; "https"]%string ->
  of_type (osmfile_new name) = FtOSM /\ of_enc (osmfile_new name) = FePBF.
Proof.
  intros S H U N. unfold osmfile_new.
  destruct (String.eqb name "" || String.eqb name "-"); [auto|].
  destruct (is_url name) eqn:IU.
  { exfalso. apply N. apply is_url_spec in IU as [IU | [-> | ->]]; cbn; tauto. }
  rewrite (name_suffix_nodot _ _ _ S H).
  assert (K : set_type_and_encoding name = (FtOSM, FePBF)).
  { symmetry. apply suffix_means_fun. destruct (String.eqb_spec name "pbf") as [->|]; [left; cbn; tauto|]. right.
    split; [|reflexivity]. intros I. 
    assert (ND : ~ has "." name \/ has "/" name).
    { destruct S as (-> & _ & [-> | (d & ->)]); [left; exact H|right]. rewrite !has_app, has_cons. tauto. }
    cbn [map fst suffix_table In] in I. cbn [In] in N.
    assert (V : forall c s, find_first c s <> None -> has c s).
    { clear. intros c s. pose proof (find_first_none c s). intros K. destruct (find_first c s) eqn:E; [|congruence].
      destruct (upto_first_split c s) as (rest & E' & H' & R'). destruct R' as [-> | (r & ->)].
      - rewrite sapp_nil_r in E'. rewrite <- E' in H'. apply H in H'. congruence.
      - exists (upto_first c s), r. exact E'. }
    destruct ND as [ND|ND].
    - repeat destruct I as [I|I]; try contradiction; subst name; try tauto; apply ND; apply V; discriminate.
    - assert (W : find_first "/" name <> None) by (intros W; apply find_first_none in W; tauto).
      repeat destruct I as [I|I]; try contradiction; subst name; apply W; reflexivity. }
  rewrite K. auto.
Qed.
Theorem stdin_stdout name : name = ""%string \/ name = "-"%string ->
  osmfile_new name = mkOF FtOSM FePBF "" (-1) 0.
Proof. intros [-> | ->]; reflexivity. Qed.
Theorem type_of_url name : url name -> of_type (osmfile_new name) = FtOSM /\ of_enc (osmfile_new name) = FeXML.
Proof.
  intros U. assert (N : is_url name = true) by (apply is_url_spec; auto). unfold osmfile_new. rewrite N.
  destruct U as (r & [-> | ->]); cbn; auto.
Qed.

Lemma splits_stem stem suf : ~ has "/" suf -> exists dir base, splits stem dir base /\ splits (stem ++ suf) dir (base ++ suf).
Proof.
  intros H. destruct (splits_exists stem) as (dir & base & S). exists dir, base. split; [exact S|].
  destruct S as (-> & N & D). split; [apply sapp_assoc|]. split; [|exact D]. rewrite has_app. tauto.
Qed.
Lemma type_names s : (forall t, type_of_string s = Ok t <-> In (s, t) type_table) /\
  (~ In s (map fst type_table) -> type_of_string s = Throw EArgument).
Proof.
  unfold type_of_string, type_table. cbn [map fst In].
  split.
  - intros t. split.
    + repeat match goal with |- context [String.eqb s ?x] => destruct (String.eqb_spec s x) as [->|]; cbn [orb] end; intros X; try discriminate; injection X as <-; tauto.
    + intros [X|[X|[X|[X|[X|[]]]]]]; injection X as <- <-; reflexivity.
  - repeat match goal with |- context [String.eqb s ?x] => destruct (String.eqb_spec s x) as [->|]; cbn [orb] end; tauto.
Qed.
Lemma enc_names s : (forall e, enc_of_string s = Ok e <-> In (s, e) enc_table) /\
  (~ In s (map fst enc_table) -> enc_of_string s = Throw EArgument).
Proof.
  unfold enc_of_string, enc_table. cbn [map fst In].
  split.
  - intros t. split.
    + repeat match goal with |- context [String.eqb s ?x] => destruct (String.eqb_spec s x) as [->|]; cbn [orb] end; intros X; try discriminate; injection X as <-; tauto.
    + intros [X|[X|[X|[X|[X|[X|[]]]]]]]; injection X as <- <-; reflexivity.
  - repeat match goal with |- context [String.eqb s ?x] => destruct (String.eqb_spec s x) as [->|]; cbn [orb] end; tauto.
Qed.
Lemma names_agree name dir stem a b : splits name dir (stem ++ String "." (a ++ String "." b)) -> ~ has "." stem -> ~ url name ->
  In a ["osm"; "osh"; "osc"]%string -> In b ["pbf"; "gz"; "bz2"]%string -> (a, b) <> ("osc", "pbf")%string ->
  type_of_string a = Ok (of_type (osmfile_new name)) /\ enc_of_string b = Ok (of_enc (osmfile_new name)).
Proof.
  intros S D U Ia Ib N.
  assert (X : exists te, suffix_means (a ++ String "." b) te /\ type_of_string a = Ok (fst te) /\ enc_of_string b = Ok (snd te)).
  { destruct Ia as [<-|[<-|[<-|[]]]], Ib as [<-|[<-|[<-|[]]]]; try congruence;
      (eexists; split; [left; cbn; match goal with |- ?G => repeat (first [left; reflexivity|right]) end|split; reflexivity]). }
  destruct X as ([t e] & M & A & B). pose proof (type_from_suffix name dir stem _ _ S D U M) as T. injection T as -> ->. auto.
Qed.
Theorem default_suffix_recognised o : ~ url (of_name o) -> (of_type o, of_enc o) <> (FtChange, FePBF) ->
  of_type (osmfile_new (filename_with_default_suffix o)) = of_type o /\
  of_enc (osmfile_new (filename_with_default_suffix o)) = of_enc o.
Proof.
  intros U N. unfold filename_with_default_suffix, filename_without_suffix.
  destruct (upto_first_split "." (of_name o)) as (rest & E & H & R).
  set (stem := upto_first "." (of_name o)) in *.
  assert (SUF : exists suffix, (ft_suffix (of_type o) ++ fe_suffix (of_enc o))%string = String "." suffix /\ suffix_means suffix (of_type o, of_enc o)
     /\ find_first "/" suffix = None /\ find_first ":" suffix = None).
  { destruct (of_type o), (of_enc o); try congruence; cbn [ft_suffix fe_suffix String.append]; eexists; (split; [reflexivity|]); (split; [left; cbn; tauto|]); split; reflexivity. }
  destruct SUF as (suffix & -> & M & NS & NC). apply find_first_none in NS, NC.
  assert (NS' : ~ has "/" (String "." suffix)) by (rewrite has_cons; intros [K|K]; [discriminate|tauto]).
  destruct (splits_stem stem (String "." suffix) NS') as (dir & base & S & S').
  assert (Hb : ~ has "." base) by (destruct S as (S & _); rewrite S, has_app in H; tauto).
  assert (U' : ~ url (stem ++ String "." suffix)).
  { intros (r & K). apply U. 
    assert (G : forall p, find_first "." p = None -> find_first ":" p = None -> (stem ++ String "." suffix)%string = (p ++ String ":" r)%string -> exists r', of_name o = (p ++ String ":" r')%string).
    { intros p P1 P2 Q. apply find_first_none in P1. apply find_first_none in P2. rewrite E. clear - H P1 Q NC.
      revert p P1 Q. induction stem as [|a st IH]; intros p P1 Q.
      - destruct p as [|b p]; cbn in Q; [discriminate|]. injection Q as <- _. rewrite has_cons in P1. tauto.
      - destruct p as [|b p]; cbn in Q; injection Q as -> Q.
        + exists (st ++ rest)%string. reflexivity.
        + rewrite has_cons in H, P1. destruct (IH ltac:(tauto) p ltac:(tauto) Q) as (r' & Er). exists r'. cbn. congruence. }
    destruct K as [K|K].
    - destruct (G "http"%string eq_refl eq_refl K) as (r' & G'). exists r'. auto.
    - destruct (G "https"%string eq_refl eq_refl K) as (r' & G'). exists r'. auto. }
  pose proof (type_from_suffix _ _ _ _ _ S' Hb U' M) as T. injection T as -> ->. auto.
Qed.

(* ---- descriptors ---- *)
Inductive move (sy : sysres) (o : osmfile) : option osmfile -> list event -> Prop :=
| mv_keep o' : of_fd o' = of_fd o -> of_child o' = of_child o -> move sy o (Some o') []
| mv_std o' n : n = 0 \/ n = 1 -> of_fd o' = n -> of_child o' = of_child o -> move sy o (Some o') []
| mv_open o' fd : r_open sy = Some fd -> of_fd o' = fd -> of_child o' = of_child o -> move sy o (Some o') [EvOpen fd]
| mv_pipe o' r w : r_pipe sy = Some (r, w) -> r_fork sy = None -> of_fd o' = of_fd o -> of_child o' = of_child o -> move sy o (Some o') [EvPipe r w]
| mv_exec o' r w p k c : r_pipe sy = Some (r, w) -> r_fork sy = Some p -> (k = r /\ c = w \/ k = w /\ c = r) ->
    of_fd o' = k -> of_child o' = p -> move sy o (Some o') [EvPipe r w; EvFork p; EvClose c]
| mv_close oo ev : ev = (if of_fd o >=? 0 then [EvClose (of_fd o)] else []) ++ (if of_child o =? 0 then [] else [EvWait (of_child o)]) ->
    match oo with Some o' => of_fd o' = -1 /\ (of_child o' = 0 \/ r_wait sy = false /\ of_child o' = of_child o) | None => True end ->
    move sy o oo ev.
Inductive cmove (sy : sysres) (o : osmfile) : option osmfile -> list event -> Prop :=
| cm_keep o' : of_fd o' = of_fd o -> of_child o' = of_child o -> cmove sy o (Some o') []
| cm_close oo ev : ev = (if of_fd o >=? 0 then [EvClose (of_fd o)] else []) ++ (if of_child o =? 0 then [] else [EvWait (of_child o)]) ->
    match oo with Some o' => of_fd o' = -1 /\ (of_child o' = 0 \/ r_wait sy = false /\ of_child o' = of_child o) | None => True end ->
    cmove sy o oo ev.
Inductive step_shape (op : fop) (sy : sysres) (s s' : fstate) : Prop :=
| ss_none : s' = s -> step_shape op sy s s'
| ss_new o : of_fd o = -1 -> of_child o = 0 -> s' = mkFS (fs_objs s ++ [Some o]) (fs_trace s) -> step_shape op sy s s'
| ss_assign i j o o' : op = FAssign i j -> obj s i = Some o -> of_fd o' = -1 -> of_child o' = 0 -> s' = mkFS (put i (Some o') (fs_objs s)) (fs_trace s) -> step_shape op sy s s'
| ss_move i o oo ev : obj s i = Some o -> (op = FOpenIn i \/ op = FOpenOut i) \/ cmove sy o oo ev -> move sy o oo ev ->
    s' = mkFS (put i oo (fs_objs s)) (fs_trace s ++ ev) -> step_shape op sy s s'.

Lemma execute_move input sy o : let '(o', ev, e) := execute input sy o in move sy o (Some o') ev.
Proof.
  unfold execute. destruct (r_pipe sy) as [[r w]|] eqn:P; [|apply mv_keep; reflexivity].
  destruct (r_fork sy) as [p|] eqn:F; [|apply mv_pipe with (1 := P); auto].
  eapply mv_exec with (1 := P) (2 := F); [|reflexivity|reflexivity]. destruct input; auto.
Qed.
Lemma open_plain_move std sy o : std = 0 \/ std = 1 -> let '(o', ev, e) := open_plain std sy o in move sy o (Some o') ev.
Proof.
  intros H. unfold open_plain. destruct (String.eqb (of_name o) ""); [eapply mv_std; [exact H|reflexivity..]|].
  destruct (r_open sy) eqn:E; [eapply mv_open; [exact E|reflexivity..]|apply mv_keep; reflexivity].
Qed.
Lemma open_in_move sy o : let '(o', ev, e) := open_for_input sy o in move sy o (Some o') ev.
Proof. unfold open_for_input. destruct (String.eqb _ _); [destruct (is_url _)|]; (apply execute_move || apply open_plain_move; auto). Qed.
Lemma open_out_move sy o : let '(o', ev, e) := open_for_output sy o in move sy o (Some o') ev.
Proof. unfold open_for_output. destruct (String.eqb _ _); (apply execute_move || apply open_plain_move; auto). Qed.
Lemma cmove_move sy o oo ev : cmove sy o oo ev -> move sy o oo ev.
Proof. intros [? ? ?|? ? ? ?]; [apply mv_keep|apply mv_close]; assumption. Qed.
Lemma close_move sy o : let '(o', ev, e) := of_close sy o in cmove sy o (Some o') ev.
Proof.
  unfold of_close. destruct (of_child o =? 0) eqn:C; [|destruct (r_wait sy) eqn:W].
  - apply cm_close; [rewrite C, app_nil_r; reflexivity|cbn; auto].
  - apply cm_close; [rewrite C; reflexivity|cbn; auto].
  - apply cm_close; [rewrite C; reflexivity|cbn; auto].
Qed.
Lemma fstep_shape op sy s : step_shape op sy s (fst (fstep op sy s)).
Proof.
  assert (M : forall i (f : osmfile -> f_result), (forall o, let '(o', ev, e) := f o in move sy o (Some o') ev /\ ((op = FOpenIn i \/ op = FOpenOut i) \/ cmove sy o (Some o') ev)) ->
     step_shape op sy s (fst (on_obj s i (fun o => keep_obj (f o))))).
  { intros i f H. unfold on_obj. destruct (obj s i) as [o|] eqn:E; [|apply ss_none; reflexivity].
    specialize (H o). destruct (f o) as [[o' ev] e]. cbn [keep_obj fst]. destruct H as [H1 H2]. eapply ss_move; eauto. }
  assert (K : forall i (f : osmfile -> osmfile), (forall o, of_fd (f o) = of_fd o /\ of_child (f o) = of_child o) ->
     step_shape op sy s (fst (on_obj s i (fun o => (Some (f o), [], None))))).
  { intros i f H. unfold on_obj. destruct (obj s i) as [o|] eqn:E; [|apply ss_none; reflexivity].
    cbn [fst]. assert (C : cmove sy o (Some (f o)) []) by (apply cm_keep; apply H). eapply ss_move; [exact E|right; exact C|apply cmove_move; exact C|reflexivity]. }
  destruct op; cbn [fstep].
  - cbn [fst]. eapply ss_new; [| |reflexivity];
    unfold osmfile_new; destruct (_ || _); [reflexivity| |reflexivity|]; destruct (is_url name); try reflexivity; destruct (set_type_and_encoding _); reflexivity.
  - destruct (obj s i) eqn:E; [|apply ss_none; reflexivity]. cbn [fst]. eapply ss_new; [| |reflexivity]; reflexivity.
  - destruct (obj s j) eqn:E; [|apply ss_none; reflexivity]. unfold on_obj. destruct (obj s i) eqn:E'; [|apply ss_none; reflexivity].
    cbn [fst]. eapply (ss_assign _ _ _ _ i j _ (osmfile_assign o)); [reflexivity|exact E'|reflexivity|reflexivity|]. rewrite app_nil_r. reflexivity.
  - apply K. intros; split; reflexivity.
  - apply K. intros; split; reflexivity.
  - apply K. intros; split; reflexivity.
  - apply M. intros o. pose proof (open_in_move sy o) as C. destruct (open_for_input sy o) as [[o' ev] e]. auto.
  - apply M. intros o. pose proof (open_out_move sy o) as C. destruct (open_for_output sy o) as [[o' ev] e]. auto.
  - apply M. intros o. pose proof (close_move sy o) as C. destruct (of_close sy o) as [[o' ev] e]. split; [apply cmove_move; exact C|auto].
  - unfold on_obj. destruct (obj s i) as [o|] eqn:E; [|apply ss_none; reflexivity].
    pose proof (close_move sy o) as C. destruct (of_close sy o) as [[o' ev] e] eqn:EC. cbn [fst].
    assert (C' : cmove sy o None ev).
    { apply cm_close; [|exact I]. unfold of_close in EC. destruct (of_child o =? 0); [|destruct (r_wait sy)]; injection EC as <- <- <-; rewrite ?app_nil_r; reflexivity. }
    eapply ss_move; [exact E|right; exact C'|apply cmove_move; exact C'|reflexivity].
Qed.

Lemma nth_put {A} (l : list A) : forall i j x, nth_error (put i x l) j =
  if Nat.eqb i j then match nth_error l i with Some _ => Some x | None => None end else nth_error l j.
Proof.
  induction l as [|a l IH]; intros i j x; cbn [put].
  - destruct i, j; cbn [nth_error Nat.eqb]; try reflexivity. destruct (Nat.eqb i j); reflexivity.
  - destruct i, j; cbn [nth_error Nat.eqb]; try reflexivity. apply IH.
Qed.
Lemma obj_put s i oo tr o j : obj s i = Some o ->
  obj (mkFS (put i oo (fs_objs s)) tr) j = if Nat.eqb i j then oo else obj s j.
Proof.
  unfold obj. cbn [fs_objs]. intros H. rewrite nth_put. destruct (Nat.eqb i j); [|reflexivity].
  destruct (nth_error (fs_objs s) i); [|discriminate]. destruct oo; reflexivity.
Qed.
Lemma obj_new s o tr j o' : obj (mkFS (fs_objs s ++ [Some o]) tr) j = Some o' -> obj s j = Some o' \/ (o' = o /\ j = List.length (fs_objs s)).
Proof.
  unfold obj. cbn [fs_objs]. intros H. destruct (Nat.lt_ge_cases j (List.length (fs_objs s))) as [L|L].
  - rewrite nth_error_app1 in H by exact L. auto.
  - right. rewrite nth_error_app2 in H by exact L.
    destruct (j - List.length (fs_objs s))%nat as [|k] eqn:K; cbn in H; [injection H as ->; split; [reflexivity|lia]|].
    destruct k; discriminate.
Qed.
Lemma obj_new_old s o tr j : obj s j <> None -> obj (mkFS (fs_objs s ++ [Some o]) tr) j = obj s j.
Proof.
  unfold obj. cbn [fs_objs]. intros H. rewrite nth_error_app1; [reflexivity|]. apply nth_error_Some. destruct (nth_error _ _); congruence.
Qed.

Lemma without_In x y l : In y (without x l) <-> In y l /\ y <> x.
Proof.
  induction l as [|a l IH]; cbn [without]; [cbn; tauto|]. destruct (Z.eqb_spec x a); cbn [In]; rewrite IH; intuition congruence.
Qed.
Lemma fds_app a b : fds (a ++ b) = fold_left fds_step b (fds a).
Proof. unfold fds. apply fold_left_app. Qed.
Lemma kids_app a b : kids (a ++ b) = fold_left kids_step b (kids a).
Proof. unfold kids. apply fold_left_app. Qed.

Lemma closes_open_app tr ev : closes_open tr ->
  (forall pre fd post, ev = pre ++ EvClose fd :: post -> fd = 0 \/ fd = 1 \/ In fd (fds (tr ++ pre))) -> closes_open (tr ++ ev).
Proof.
  intros C H pre fd post E. 
  assert (K : (exists b, tr = pre ++ EvClose fd :: b) \/ exists a, pre = tr ++ a /\ ev = a ++ EvClose fd :: post).
  { revert pre E. clear. induction tr as [|x tr IH]; intros pre E.
    - right. exists pre. auto.
    - destruct pre as [|y pre]; cbn in E; injection E as -> E.
      + left. exists tr. reflexivity.
      + destruct (IH pre E) as [(b & ->) | (a & -> & ->)]; [left; exists b; reflexivity|right; exists a; auto]. }
  destruct K as [(b & ->) | (a & -> & ->)]; [eapply C; reflexivity|]. eapply H. reflexivity.
Qed.
Lemma waits_running_app tr ev : waits_running tr ->
  (forall pre p post, ev = pre ++ EvWait p :: post -> In p (kids (tr ++ pre))) -> waits_running (tr ++ ev).
Proof.
  intros C H pre fd post E. 
  assert (K : (exists b, tr = pre ++ EvWait fd :: b) \/ exists a, pre = tr ++ a /\ ev = a ++ EvWait fd :: post).
  { revert pre E. clear. induction tr as [|x tr IH]; intros pre E.
    - right. exists pre. auto.
    - destruct pre as [|y pre]; cbn in E; injection E as -> E.
      + left. exists tr. reflexivity.
      + destruct (IH pre E) as [(b & ->) | (a & -> & ->)]; [left; exists b; reflexivity|right; exists a; auto]. }
  destruct K as [(b & ->) | (a & -> & ->)]; [eapply C; reflexivity|]. eapply H. reflexivity.
Qed.

Definition fd_inv (s : fstate) : Prop :=
  (forall i o, obj s i = Some o -> of_fd o = -1 \/ of_fd o = 0 \/ of_fd o = 1 \/ (3 <= of_fd o /\ In (of_fd o) (fds (fs_trace s)))) /\
  (forall i j o o', obj s i = Some o -> obj s j = Some o' -> i <> j -> 3 <= of_fd o -> of_fd o <> of_fd o') /\
  closes_open (fs_trace s).

Ltac list_split E pre :=
  repeat (destruct pre as [|? pre]; cbn [app] in E; [injection E; intros; subst; clear E| injection E; intros; subst; clear E]).

Lemma fd_inv_step op sy s : fd_inv s -> fresh_fds (fs_trace s) sy -> fd_inv (fst (fstep op sy s)).
Proof.
  intros (I1 & I2 & I3) [FO FP]. destruct (fstep_shape op sy s) as [-> | o F C -> | i jj o o' _ Hi F C -> | i o oo ev Hi _ M ->].
  - repeat split; assumption.
  - split; [|split]; cbn [fs_trace].
    + intros j o' H. apply obj_new in H as [H | [-> _]]; [eapply I1; exact H|auto].
    + intros j k o1 o2 H1 H2 N G. apply obj_new in H1 as [H1 | [-> _]]; [|lia].
      apply obj_new in H2 as [H2 | [-> _]]; [eapply I2; eassumption|lia].
    + exact I3.
  - split; [|split]; cbn [fs_trace].
    + intros j o1 H. rewrite (obj_put _ _ _ _ _ _ Hi) in H. destruct (Nat.eqb i j); [injection H as <-; auto|eapply I1; exact H].
    + intros j k o1 o2 H1 H2 N G. rewrite (obj_put _ _ _ _ _ _ Hi) in H1. rewrite (obj_put _ _ _ _ _ _ Hi) in H2.
      destruct (Nat.eqb_spec i j); [injection H1 as <-; lia|]. destruct (Nat.eqb_spec i k); [injection H2 as <-; lia|eapply (I2 j k); eassumption].
    + exact I3.
  - (* a move: describe the new descriptor of the object and the table of descriptors *)
    assert (T : forall o', oo = Some o' -> of_fd o' = -1 \/ of_fd o' = 0 \/ of_fd o' = 1 \/ of_fd o' = of_fd o \/
                (3 <= of_fd o' /\ ~ In (of_fd o') (fds (fs_trace s)))).
    { destruct M as [o1 Ef Ec | o1 n Hn Ef Ec | o1 fd1 Hop Ef Ec | o1 r w Hp Hk Ef Ec | o1 r w p k c Hp Hk Hkc Ef Ec | oo ev Eev Hoo]; intros o' Eo; try (injection Eo as <-).
      - auto.
      - lia.
      - destruct (FO _ Hop). right. right. right. right. split; [lia|congruence].
      - auto.
      - destruct (FP _ _ Hp) as (P1 & P2 & P3 & P4 & P5). right. right. right. right. rewrite Ef. destruct Hkc as [[-> ->] | [-> ->]]; auto.
      - subst oo. destruct Hoo as [Hoo _]. auto. }
    assert (T2 : forall o', oo = Some o' -> 3 <= of_fd o' -> In (of_fd o') (fds (fs_trace s ++ ev))).
    { pose proof (I1 i o Hi) as I. destruct M as [o1 Ef Ec | o1 n Hn Ef Ec | o1 fd1 Hop Ef Ec | o1 r w Hp Hk Ef Ec | o1 r w p k c Hp Hk Hkc Ef Ec | oo ev Eev Hoo]; intros o' Eo G; try (injection Eo as <-); rewrite fds_app; cbn [fold_left fds_step].
      - rewrite Ef in *. destruct I as [I|[I|[I|[_ I]]]]; [lia..|exact I].
      - lia.
      - left. congruence.
      - right. right. rewrite Ef in *. destruct I as [I|[I|[I|[_ I]]]]; [lia..|exact I].
      - destruct (FP _ _ Hp) as (P1 & P2 & P3 & P4 & P5). apply without_In. cbn [In]. rewrite Ef. destruct Hkc as [[-> ->] | [-> ->]]; split; auto.
      - subst oo. destruct Hoo as [Hoo _]. lia. }
    (* descriptors of other objects stay open *)
    assert (T3 : forall j o', obj s j = Some o' -> i <> j -> 3 <= of_fd o' -> In (of_fd o') (fds (fs_trace s)) -> In (of_fd o') (fds (fs_trace s ++ ev))).
    { intros j o' Hj N G J. rewrite fds_app. destruct M as [o1 Ef Ec | o1 n Hn Ef Ec | o1 fd1 Hop Ef Ec | o1 r w Hp Hk Ef Ec | o1 r w p k c Hp Hk Hkc Ef Ec | oo ev Eev Hoo]; cbn [fold_left fds_step]; try (cbn [In]; tauto).
      - destruct (FP _ _ Hp) as (P1 & P2 & P3 & P4 & P5). apply without_In. cbn [In]. split; [auto|]. destruct Hkc as [[-> ->] | [-> ->]]; congruence.
      - assert (K : In (of_fd o') (fold_left fds_step (if of_fd o >=? 0 then [EvClose (of_fd o)] else []) (fds (fs_trace s)))).
        { destruct (of_fd o >=? 0); cbn [fold_left fds_step]; [|exact J]. apply without_In. split; [exact J|].
          apply (I2 j i o' o); auto. }
        subst ev. rewrite fold_left_app. destruct (of_child o =? 0); exact K. }
    split; [|split]; cbn [fs_trace].
    + intros j o' H. rewrite (obj_put _ _ _ _ _ _ Hi) in H. destruct (Nat.eqb_spec i j) as [<-|N].
      * pose proof (T o' H) as K. destruct (Z.le_gt_cases 3 (of_fd o')) as [G|G].
        -- right. right. right. split; [exact G|]. apply T2; assumption.
        -- pose proof (I1 i o Hi). destruct K as [K|[K|[K|[K|K]]]]; try lia.
      * destruct (I1 j o' H) as [K|[K|[K|[K1 K2]]]]; auto. right. right. right. split; [exact K1|]. eapply T3; eassumption.
    + intros j k o1 o2 H1 H2 N G. rewrite (obj_put _ _ _ _ _ _ Hi) in H1. rewrite (obj_put _ _ _ _ _ _ Hi) in H2.
      destruct (Nat.eqb_spec i j) as [<-|Nj].
      * destruct (Nat.eqb_spec i k) as [->|Nk]; [congruence|].
        destruct (T o1 H1) as [K|[K|[K|[K|[K1 K2]]]]]; try lia.
        -- rewrite K in *. apply (I2 i k o o2); auto.
        -- intros E. apply K2. rewrite E. destruct (I1 k o2 H2) as [Q|[Q|[Q|[Q1 Q2]]]]; try lia. exact Q2.
      * destruct (Nat.eqb_spec i k) as [->|Nk]; [|eapply (I2 j k); eassumption].
        destruct (T o2 H2) as [K|[K|[K|[K|[K1 K2]]]]]; try lia.
        -- rewrite K. apply (I2 j k o1 o); auto.
        -- intros E. apply K2. rewrite <- E. destruct (I1 j o1 H1) as [Q|[Q|[Q|[Q1 Q2]]]]; try lia. exact Q2.
    + apply closes_open_app; [exact I3|]. intros pre fd post E. clear T T2 T3. destruct M as [o1 Ef Ec | o1 n Hn Ef Ec | o1 fd1 Hop Ef Ec | o1 r w Hp Hk Ef Ec | o1 r w p k c Hp Hk Hkc Ef Ec | oo ev Eev Hoo]; try (destruct pre as [|? [|? ?]]; discriminate).
      * destruct (FP _ _ Hp) as (P1 & P2 & P3 & P4 & P5).
        destruct pre as [|? [|? [|? pre]]]; cbn [app] in E; try discriminate; [|destruct pre; discriminate].
        injection E as <- <- <- <-. right. right. rewrite fds_app. cbn [fold_left fds_step In]. destruct Hkc as [[-> ->] | [-> ->]]; auto.
      * subst ev. destruct (Z.geb_spec (of_fd o) 0) as [G|G].
        -- assert (pre = [] /\ fd = of_fd o) as [-> ->].
           { destruct (of_child o =? 0); destruct pre as [|? [|? [|? pre]]]; cbn [app] in E; try discriminate; injection E; intros; subst; auto; discriminate. }
           rewrite app_nil_r. destruct (I1 i o Hi) as [K|[K|[K|[K1 K2]]]]; auto. lia.
        -- exfalso. destruct (of_child o =? 0); destruct pre as [|? [|? pre]]; discriminate.
Qed.
Lemma fd_inv_init : fd_inv fs_init.
Proof.
  split; [|split].
  - intros i o H. unfold obj in H. destruct i; discriminate.
  - intros i j o o' H. unfold obj in H. destruct i; discriminate.
  - intros pre fd post E. destruct pre; discriminate.
Qed.
Lemma fd_inv_run l : forall s, fd_inv s -> along fresh_fds l s -> fd_inv (frun l s).
Proof.
  induction l as [|[op sy] l IH]; intros s I A; cbn [frun along] in *; [exact I|]. destruct A as [A1 A2].
  apply IH; [|exact A2]. apply fd_inv_step; assumption.
Qed.
Theorem no_double_close l : along fresh_fds l fs_init -> closes_open (fs_trace (frun l fs_init)).
Proof. intros A. destruct (fd_inv_run l _ fd_inv_init A) as (_ & _ & H). exact H. Qed.
Theorem no_shared_fd l i j o o' : along fresh_fds l fs_init -> obj (frun l fs_init) i = Some o -> obj (frun l fs_init) j = Some o' -> i <> j ->
  3 <= of_fd o -> of_fd o <> of_fd o'.
Proof. intros A. destruct (fd_inv_run l _ fd_inv_init A) as (_ & H & _). apply H. Qed.

(* children *)
Definition pid_inv (s : fstate) : Prop :=
  (forall i o, obj s i = Some o -> of_child o <> 0 -> In (EvFork (of_child o)) (fs_trace s)) /\
  (forall i j o o', obj s i = Some o -> obj s j = Some o' -> i <> j -> of_child o <> 0 -> of_child o <> of_child o').
Lemma pid_inv_step op sy s : pid_inv s -> new_pid (fs_trace s) sy -> pid_inv (fst (fstep op sy s)).
Proof.
  intros (I1 & I2) NP. destruct (fstep_shape op sy s) as [-> | o F C -> | i jj o o' _ Hi F C -> | i o oo ev Hi _ M ->].
  - split; assumption.
  - split; cbn [fs_trace].
    + intros j o' H N. apply obj_new in H as [H | [-> _]]; [eapply I1; eassumption|congruence].
    + intros j k o1 o2 H1 H2 N G. apply obj_new in H1 as [H1 | [-> _]]; [|lia].
      apply obj_new in H2 as [H2 | [-> _]]; [eapply I2; eassumption|congruence].
  - split; cbn [fs_trace].
    + intros j o1 H N. rewrite (obj_put _ _ _ _ _ _ Hi) in H. destruct (Nat.eqb i j); [injection H as <-; congruence|eapply I1; eassumption].
    + intros j k o1 o2 H1 H2 N G. rewrite (obj_put _ _ _ _ _ _ Hi) in H1. rewrite (obj_put _ _ _ _ _ _ Hi) in H2.
      destruct (Nat.eqb_spec i j); [injection H1 as <-; lia|]. destruct (Nat.eqb_spec i k); [injection H2 as <-; lia|eapply (I2 j k); eassumption].
  - assert (T : forall o', oo = Some o' -> of_child o' = 0 \/ of_child o' = of_child o \/
                (In (EvFork (of_child o')) ev /\ ~ In (EvFork (of_child o')) (fs_trace s))).
    { destruct M as [o1 Ef Ec | o1 n Hn Ef Ec | o1 fd1 Hop Ef Ec | o1 r w Hp Hk Ef Ec | o1 r w p k c Hp Hk Hkc Ef Ec | oo ev Eev Hoo]; intros o' Eo; try (injection Eo as <-); auto.
      - right. right. rewrite Ec. destruct (NP _ Hk). split; [cbn; auto|assumption].
      - subst oo. destruct Hoo as [_ [H0 | [_ H0]]]; auto. }
    split; cbn [fs_trace].
    + intros j o' H N. rewrite (obj_put _ _ _ _ _ _ Hi) in H. apply in_or_app. destruct (Nat.eqb_spec i j) as [<-|Nj].
      * destruct (T o' H) as [K|[K|[K _]]]; [congruence| |auto]. left. rewrite K in *. apply (I1 i o); auto.
      * left. apply (I1 j o'); auto.
    + intros j k o1 o2 H1 H2 N G. rewrite (obj_put _ _ _ _ _ _ Hi) in H1. rewrite (obj_put _ _ _ _ _ _ Hi) in H2.
      destruct (Nat.eqb_spec i j) as [<-|Nj].
      * destruct (Nat.eqb_spec i k) as [->|Nk]; [congruence|].
        destruct (T o1 H1) as [K|[K|[K1 K2]]]; [congruence| |].
        -- rewrite K in *. apply (I2 i k o o2); auto.
        -- intros E. apply K2. rewrite E in *. apply (I1 k o2); auto.
      * destruct (Nat.eqb_spec i k) as [->|Nk]; [|eapply (I2 j k); eassumption].
        destruct (T o2 H2) as [K|[K|[K1 K2]]]; [congruence| |].
        -- rewrite K. apply (I2 j k o1 o); auto.
        -- intros E. apply K2. rewrite <- E. apply (I1 j o1); auto.
Qed.
Lemma pid_inv_init : pid_inv fs_init.
Proof. split; intros i; [intros o H|intros j o o' H]; unfold obj in H; destruct i; discriminate. Qed.
Theorem no_shared_child l i j o o' : along new_pid l fs_init -> obj (frun l fs_init) i = Some o -> obj (frun l fs_init) j = Some o' -> i <> j ->
  of_child o <> 0 -> of_child o <> of_child o'.
Proof.
  intros A. enough (H : pid_inv (frun l fs_init)) by apply H.
  revert A. generalize pid_inv_init. generalize fs_init. induction l as [|[op sy] l IH]; intros s I A; cbn [frun along] in *; [exact I|].
  destruct A as [A1 A2]. apply IH; [|exact A2]. apply pid_inv_step; assumption.
Qed.

(* careful programs *)
Definition care_inv (s : fstate) : Prop :=
  fd_inv s /\
  (forall fd, In fd (fds (fs_trace s)) -> exists i o, obj s i = Some o /\ of_fd o = fd /\ 3 <= fd) /\
  (forall i o, obj s i = Some o -> of_child o <> 0 -> In (of_child o) (kids (fs_trace s))) /\
  (forall i j o o', obj s i = Some o -> obj s j = Some o' -> i <> j -> of_child o <> 0 -> of_child o <> of_child o') /\
  (forall p, In p (kids (fs_trace s)) -> exists i o, obj s i = Some o /\ of_child o = p /\ p <> 0) /\
  waits_running (fs_trace s).

Lemma care_inv_step op sy s : care_inv s -> careful s op sy -> fresh_fds (fs_trace s) sy -> fresh_pid (fs_trace s) sy ->
  care_inv (fst (fstep op sy s)).
Proof.
  intros (I & I1 & I2 & I3 & I4 & I5) [W Cf] FF FP.
  split; [apply fd_inv_step; assumption|]. pose proof FF as [FO FPi]. destruct I as (J1 & J2 & J3).
  destruct (fstep_shape op sy s) as [-> | o F C -> | i jj o o' Eop Hi F C -> | i o oo ev Hi K M ->].
  - repeat split; assumption.
  - cbn [fs_trace]. split; [|split; [|split; [|split]]].
    + intros fd H. destruct (I1 fd H) as (i & o' & Hi & Q). exists i, o'. split; [|exact Q]. rewrite obj_new_old; congruence.
    + intros j o' H N. apply obj_new in H as [H | [-> _]]; [eapply I2; eassumption|congruence].
    + intros j k o1 o2 H1 H2 N G. apply obj_new in H1 as [H1 | [-> _]]; [|congruence].
      apply obj_new in H2 as [H2 | [-> _]]; [eapply I3; eassumption|congruence].
    + intros p H. destruct (I4 p H) as (i & o' & Hi & Q). exists i, o'. split; [|exact Q]. rewrite obj_new_old; congruence.
    + exact I5.
  - subst op. cbn [careful] in Cf. destruct (Cf o Hi) as [Of Oc]. cbn [fs_trace]. split; [|split; [|split; [|split]]].
    + intros fd H. destruct (I1 fd H) as (k & o1 & Hk & Q). exists k, o1. split; [|exact Q].
      rewrite (obj_put _ _ _ _ _ _ Hi). destruct (Nat.eqb_spec i k) as [<-|]; [|exact Hk]. exfalso. rewrite Hi in Hk. injection Hk as <-. lia.
    + intros k o1 H N. rewrite (obj_put _ _ _ _ _ _ Hi) in H. destruct (Nat.eqb_spec i k); [congruence|]. eapply I2; eassumption.
    + intros k l o1 o2 H1 H2 N G. rewrite (obj_put _ _ _ _ _ _ Hi) in H1. rewrite (obj_put _ _ _ _ _ _ Hi) in H2.
      destruct (Nat.eqb_spec i k); [congruence|]. destruct (Nat.eqb_spec i l); [congruence|]. eapply (I3 k l); eassumption.
    + intros p H. destruct (I4 p H) as (k & o1 & Hk & Q). exists k, o1. split; [|exact Q].
      rewrite (obj_put _ _ _ _ _ _ Hi). destruct (Nat.eqb_spec i k) as [<-|]; [|exact Hk]. exfalso. rewrite Hi in Hk. injection Hk as <-. lia.
    + exact I5.
  - assert (KK : cmove sy o oo ev \/ (of_fd o = -1 /\ of_child o = 0 /\ exists o', oo = Some o' /\
          ( (ev = [] /\ of_fd o' < 3 /\ of_child o' = 0) \/
            (exists fd, ev = [EvOpen fd] /\ of_fd o' = fd /\ 3 <= fd /\ of_child o' = 0) \/
            (exists k c p, (ev = [EvPipe k c; EvFork p; EvClose c] \/ ev = [EvPipe c k; EvFork p; EvClose c]) /\ k <> c /\ 3 <= k /\ 3 <= c /\ 0 < p /\ ~ In c (fds (fs_trace s)) /\ ~ In p (kids (fs_trace s)) /\
               of_fd o' = k /\ of_child o' = p) ))).
    { destruct K as [K|K]; [|left; exact K].
      assert (of_fd o = -1 /\ of_child o = 0 /\ r_fork sy <> None) as (Of & Oc & Ok).
      { destruct K; subst op; cbn [careful] in Cf; destruct Cf as [Cf1 Cf2]; destruct (Cf2 o Hi); auto. }
      destruct M as [o1 Ef Ec | o1 n Hn Ef Ec | o1 fd1 Hop Ef Ec | o1 r w Hp Hk Ef Ec | o1 r w p k c Hp Hk Hkc Ef Ec | oo ev Eev Hoo].
      - left. apply cm_keep; assumption.
      - right. repeat (split; [assumption|]). exists o1. split; [reflexivity|]. left. repeat split; congruence || lia.
      - right. repeat (split; [assumption|]). exists o1. split; [reflexivity|]. right. left. exists fd1. destruct (FO _ Hop). repeat split; congruence || lia.
      - congruence.
      - right. repeat (split; [assumption|]). exists o1. split; [reflexivity|]. right. right. exists k, c, p. destruct (FPi _ _ Hp) as (P1 & P2 & P3 & P4 & P5). destruct (FP _ Hk).
          destruct Hkc as [[-> ->] | [-> ->]]; repeat split; auto.
      - left. apply cm_close; assumption. }
    clear K M. cbn [fs_trace].
    assert (OWN : forall (x : osmfile -> Z) v (tr : list event), x o <> v -> (exists k o1, obj s k = Some o1 /\ x o1 = v) -> exists k o1, obj (mkFS (put i oo (fs_objs s)) tr) k = Some o1 /\ x o1 = v).
    { intros x v tr N (k & o1 & Hk & Q). exists k, o1. split; [|exact Q]. rewrite (obj_put _ _ _ _ _ _ Hi).
      destruct (Nat.eqb_spec i k) as [<-|]; [|exact Hk]. exfalso. rewrite Hi in Hk. injection Hk as <-. congruence. }
    assert (I1' : forall fd, In fd (fds (fs_trace s)) -> exists k o1, obj s k = Some o1 /\ of_fd o1 = fd).
    { intros fd H. destruct (I1 fd H) as (k & o1 & A & B & _). eauto. }
    assert (I1g : forall fd, In fd (fds (fs_trace s)) -> 3 <= fd).
    { intros fd H. destruct (I1 fd H) as (k & o1 & A & B & C). exact C. }
    assert (I4' : forall p, In p (kids (fs_trace s)) -> exists k o1, obj s k = Some o1 /\ of_child o1 = p).
    { intros fd H. destruct (I4 fd H) as (k & o1 & A & B & _). eauto. }
    assert (I4g : forall p, In p (kids (fs_trace s)) -> p <> 0).
    { intros fd H. destruct (I4 fd H) as (k & o1 & A & B & C). exact C. }
    assert (NEW : forall o' tr, oo = Some o' -> obj (mkFS (put i oo (fs_objs s)) tr) i = Some o').
    { intros o' tr ->. rewrite (obj_put _ _ _ _ _ _ Hi). rewrite Nat.eqb_refl. reflexivity. }
    enough (G : (forall fd, In fd (fds (fs_trace s ++ ev)) -> 3 <= fd /\ exists k o1, obj (mkFS (put i oo (fs_objs s)) (fs_trace s ++ ev)) k = Some o1 /\ of_fd o1 = fd) /\
      (forall o', oo = Some o' -> of_child o' <> 0 -> In (of_child o') (kids (fs_trace s ++ ev)) /\ (of_child o' = of_child o \/ ~ In (of_child o') (kids (fs_trace s)))) /\
      (forall p, p <> of_child o -> In p (kids (fs_trace s)) -> In p (kids (fs_trace s ++ ev))) /\
      (forall p, In p (kids (fs_trace s ++ ev)) -> p <> 0 /\ exists k o1, obj (mkFS (put i oo (fs_objs s)) (fs_trace s ++ ev)) k = Some o1 /\ of_child o1 = p) /\
      (forall pre p post, ev = pre ++ EvWait p :: post -> In p (kids (fs_trace s ++ pre)))).
    { destruct G as (G1 & G2 & G3 & G4 & G5). split; [|split; [|split; [|split]]].
      - intros fd H. destruct (G1 fd H) as (A & k & o1 & B & C). exists k, o1. auto.
      - intros j o1 H N. rewrite (obj_put _ _ _ _ _ _ Hi) in H. destruct (Nat.eqb_spec i j) as [<-|Nj].
        + apply G2; assumption.
        + apply G3; [|eapply I2; eassumption]. intros E. destruct (Z.eq_dec (of_child o) 0); [congruence|]. apply (I3 i j o o1 Hi H Nj); auto.
      - intros j k o1 o2 H1 H2 N G. rewrite (obj_put _ _ _ _ _ _ Hi) in H1. rewrite (obj_put _ _ _ _ _ _ Hi) in H2.
        destruct (Nat.eqb_spec i j) as [<-|Nj].
        + destruct (Nat.eqb_spec i k) as [|Nk]; [congruence|]. destruct (G2 o1 H1 G) as [_ [Q|Q]].
          * rewrite Q in *. apply (I3 i k o o2); auto.
          * intros E. apply Q. rewrite E in *. eapply I2; eassumption.
        + destruct (Nat.eqb_spec i k) as [<-|Nk]; [|eapply (I3 j k); eassumption].
          intros E. assert (G' : of_child o2 <> 0) by congruence. destruct (G2 o2 H2 G') as [_ [Q|Q]].
          * apply (I3 j i o1 o); auto. congruence.
          * apply Q. rewrite <- E. eapply I2; eassumption.
      - intros p H. destruct (G4 p H) as (A & k & o1 & B & C). exists k, o1. auto.
      - apply waits_running_app; [exact I5|exact G5]. }
    destruct KK as [CM | (Of & Oc & o' & -> & X)].
    + destruct CM as [o1 Ef Ec | oo ev Eev Hoo].
      * rewrite app_nil_r. split; [|split; [|split; [|split]]].
        -- intros fd H. split; [apply I1g; exact H|]. destruct (Z.eq_dec (of_fd o) fd) as [E|E].
           ++ exists i, o1. split; [apply NEW; reflexivity|congruence].
           ++ apply OWN; [exact E|apply I1'; exact H].
        -- intros o' E N. injection E as <-. rewrite Ec in *. split; [|auto]. apply (I2 i o Hi N).
        -- auto.
        -- intros p H. split; [apply I4g; exact H|]. destruct (Z.eq_dec (of_child o) p) as [E|E].
           ++ exists i, o1. split; [apply NEW; reflexivity|congruence].
           ++ apply OWN; [exact E|apply I4'; exact H].
        -- intros pre p post E. destruct pre; discriminate.
      * assert (Fe : fds (fs_trace s ++ ev) = if of_fd o >=? 0 then without (of_fd o) (fds (fs_trace s)) else fds (fs_trace s)).
        { rewrite fds_app, Eev. destruct (of_fd o >=? 0), (of_child o =? 0); reflexivity. }
        assert (Ke : kids (fs_trace s ++ ev) = if of_child o =? 0 then kids (fs_trace s) else without (of_child o) (kids (fs_trace s))).
        { rewrite kids_app, Eev. destruct (of_fd o >=? 0), (of_child o =? 0); reflexivity. }
        split; [|split; [|split; [|split]]].
        -- intros fd H. rewrite Fe in H.
           assert (Q : In fd (fds (fs_trace s)) /\ of_fd o <> fd).
           { destruct (Z.geb_spec (of_fd o) 0); [apply without_In in H; intuition|]. split; [exact H|]. apply I1g in H. lia. }
           split; [apply I1g; apply Q|]. apply OWN; [apply Q|apply I1'; apply Q].
        -- intros o' -> N. destruct Hoo as [_ [Q | [Q _]]]; congruence.
        -- intros p N H. rewrite Ke. destruct (of_child o =? 0); [exact H|]. apply without_In. auto.
        -- intros p H. rewrite Ke in H.
           assert (Q : In p (kids (fs_trace s)) /\ of_child o <> p).
           { destruct (Z.eqb_spec (of_child o) 0) as [E|]; [|apply without_In in H; intuition]. split; [exact H|]. apply I4g in H. congruence. }
           split; [apply I4g; apply Q|]. apply OWN; [apply Q|apply I4'; apply Q].
        -- intros pre p post E. rewrite Eev in E. destruct (Z.eqb_spec (of_child o) 0) as [Z0|Z0].
           ++ exfalso. destruct (of_fd o >=? 0), pre as [|? [|? ?]]; discriminate.
           ++ assert (p = of_child o /\ kids (fs_trace s ++ pre) = kids (fs_trace s)) as [-> ->].
              { rewrite kids_app. destruct (of_fd o >=? 0), pre as [|? [|? [|? ?]]]; cbn in E; try discriminate; injection E; intros; subst; auto; discriminate. }
              apply (I2 i o Hi Z0).
    + destruct X as [(-> & A & B) | [(fd0 & -> & A & A' & B) | (k & c & p & Ev & N1 & N2 & N3 & N4 & N5 & N6 & A & B)]].
      * rewrite app_nil_r. split; [|split; [|split; [|split]]].
        -- intros fd H. split; [apply I1g; exact H|]. apply OWN; [apply I1g in H; lia|apply I1'; exact H].
        -- intros o1 E N. congruence.
        -- auto.
        -- intros p H. split; [apply I4g; exact H|]. apply OWN; [apply I4g in H; congruence|apply I4'; exact H].
        -- intros pre p post E. destruct pre; discriminate.
      * rewrite !fds_app, !kids_app. cbn [fold_left fds_step kids_step]. split; [|split; [|split; [|split]]].
        -- intros fd [<-|H].
           ++ split; [exact A'|]. exists i, o'. split; [apply NEW; reflexivity|exact A].
           ++ split; [apply I1g; exact H|]. apply OWN; [apply I1g in H; lia|apply I1'; exact H].
        -- intros o1 E N. congruence.
        -- auto.
        -- intros p H. split; [apply I4g; exact H|]. apply OWN; [apply I4g in H; congruence|apply I4'; exact H].
        -- intros pre p post E. destruct pre as [|? [|? ?]]; discriminate.
      * assert (Fe : forall fd, In fd (fds (fs_trace s ++ ev)) <-> fd = k \/ In fd (fds (fs_trace s))).
        { intros fd. rewrite fds_app. destruct Ev as [-> | ->]; cbn [fold_left fds_step]; rewrite without_In; cbn [In]; intuition congruence. }
        assert (Ke : forall q, In q (kids (fs_trace s ++ ev)) <-> q = p \/ In q (kids (fs_trace s))).
        { intros q. rewrite kids_app. destruct Ev as [-> | ->]; cbn [fold_left kids_step In]; intuition congruence. }
        split; [|split; [|split; [|split]]].
        -- intros fd H. apply Fe in H. destruct H as [->|H].
           ++ split; [exact N2|]. exists i, o'. split; [apply NEW; reflexivity|exact A].
           ++ split; [apply I1g; exact H|]. apply OWN; [apply I1g in H; lia|apply I1'; exact H].
        -- intros o1 E N. injection E as <-. rewrite B in *. split; [apply Ke; auto|auto].
        -- intros q _ H. apply Ke. auto.
        -- intros q H. apply Ke in H. destruct H as [->|H].
           ++ split; [lia|]. exists i, o'. split; [apply NEW; reflexivity|exact B].
           ++ split; [apply I4g; exact H|]. apply OWN; [apply I4g in H; congruence|apply I4'; exact H].
        -- intros pre q post E. destruct Ev as [-> | ->]; destruct pre as [|? [|? [|? [|? ?]]]]; discriminate.
Qed.
Lemma care_inv_init : care_inv fs_init.
Proof.
  split; [exact fd_inv_init|]. split; [intros fd []|].
  destruct pid_inv_init as [_ P2]. split; [|split; [exact P2|split; [intros p []|]]].
  - intros i o H. unfold obj in H. destruct i; discriminate.
  - intros pre p post E. destruct pre; discriminate.
Qed.
Lemma care_inv_run l : forall s, care_inv s -> ops_along careful l s -> along fresh_fds l s -> along fresh_pid l s -> care_inv (frun l s).
Proof.
  induction l as [|[op sy] l IH]; intros s I C A B; cbn [frun along ops_along] in *; [exact I|].
  destruct A, B, C. apply IH; [apply care_inv_step|..]; assumption.
Qed.
Theorem careful_no_leak l : ops_along careful l fs_init -> along fresh_fds l fs_init -> along fresh_pid l fs_init ->
  all_closed (frun l fs_init) -> fds (fs_trace (frun l fs_init)) = [] /\ kids (fs_trace (frun l fs_init)) = [].
Proof.
  intros C A B AC. destruct (care_inv_run l _ care_inv_init C A B) as (_ & I1 & _ & _ & I4 & _). split.
  - destruct (fds _) as [|x r] eqn:E; [reflexivity|]. destruct (I1 x (or_introl eq_refl)) as (i & o & Hi & F & G). destruct (AC i o Hi). lia.
  - destruct (kids _) as [|x r] eqn:E; [reflexivity|]. destruct (I4 x (or_introl eq_refl)) as (i & o & Hi & F & G). destruct (AC i o Hi). congruence.
Qed.
Theorem careful_waits l : ops_along careful l fs_init -> along fresh_fds l fs_init -> along fresh_pid l fs_init ->
  waits_running (fs_trace (frun l fs_init)).
Proof. intros C A B. destruct (care_inv_run l _ care_inv_init C A B) as (_ & _ & _ & _ & _ & I5). exact I5. Qed.

(** close: reports a failed helper, frees the descriptor *)
Theorem close_reports s i o sy : obj s i = Some o -> of_child o <> 0 ->
  (snd (fstep (FClose i) sy s) = None <-> r_wait sy = true) /\
  exists o', obj (fst (fstep (FClose i) sy s)) i = Some o' /\ of_fd o' = -1.
Proof.
  intros H N. cbn [fstep]. unfold on_obj. rewrite H. unfold of_close. replace (of_child o =? 0) with false by lia.
  destruct (r_wait sy); cbn [keep_obj fst snd]; (split; [split; congruence|]); rewrite (obj_put _ _ _ _ _ _ H), Nat.eqb_refl; eexists; (split; [reflexivity|]); reflexivity.
Qed.
Theorem open_failure_unchanged s i o sy op : op = FOpenIn i \/ op = FOpenOut i -> obj s i = Some o -> snd (fstep op sy s) <> None ->
  obj (fst (fstep op sy s)) i = Some o.
Proof.
  intros E H N.
  assert (EX : forall b, snd (execute b sy o) <> None -> fst (fst (execute b sy o)) = o).
  { intros b. unfold execute. destruct (r_pipe sy) as [[r w]|]; [destruct (r_fork sy)|]; cbn; congruence. }
  assert (OP : forall n, snd (open_plain n sy o) <> None -> fst (fst (open_plain n sy o)) = o).
  { intros n. unfold open_plain. destruct (String.eqb _ _); [cbn; congruence|]. destruct (r_open sy); cbn; congruence. }
  destruct E; subst op; cbn [fstep] in *; unfold on_obj in *; rewrite H in *.
  - assert (K : snd (open_for_input sy o) <> None -> fst (fst (open_for_input sy o)) = o).
    { unfold open_for_input. destruct (String.eqb _ _); [destruct (is_url _)|]; auto. }
    destruct (open_for_input sy o) as [[o' ev] e]. cbn [keep_obj fst snd] in *. rewrite (obj_put _ _ _ _ _ _ H), Nat.eqb_refl. rewrite K by exact N. reflexivity.
  - assert (K : snd (open_for_output sy o) <> None -> fst (fst (open_for_output sy o)) = o).
    { unfold open_for_output. destruct (String.eqb _ _); auto. }
    destruct (open_for_output sy o) as [[o' ev] e]. cbn [keep_obj fst snd] in *. rewrite (obj_put _ _ _ _ _ _ H), Nat.eqb_refl. rewrite K by exact N. reflexivity.
Qed.

(* ---- factory ---- *)
Section Fac.
Context {C : Type}.
Implicit Types (l : list (facop C)) (m : @factory C).
Lemma fe_eqb_spec a b : fe_eqb a b = true <-> a = b.
Proof. destruct a, b; cbn; split; congruence. Qed.
Lemma fe_eqb_refl a : fe_eqb a a = true.
Proof. destruct a; reflexivity. Qed.
Lemma find_filter e e' m : fac_find e (filter (fun p => negb (fe_eqb e' (fst p))) m) = if fe_eqb e' e then None else fac_find e m.
Proof.
  induction m as [|[x c] m IH]; cbn [filter fst fac_find]; [destruct (fe_eqb e' e); reflexivity|].
  destruct (fe_eqb e' x) eqn:E; cbn [negb].
  - rewrite IH. destruct (fe_eqb e' e) eqn:E'; [reflexivity|]. destruct (fe_eqb e x) eqn:E''; [|reflexivity].
    apply fe_eqb_spec in E, E''. subst. rewrite fe_eqb_refl in E'. discriminate.
  - cbn [fac_find]. rewrite IH. destruct (fe_eqb e' e) eqn:E'; [|reflexivity].
    apply fe_eqb_spec in E'. subst e'. rewrite E. reflexivity.
Qed.
Lemma facrun_app l l' m : facrun (l ++ l') m = facrun l' (facrun l m).
Proof. revert m. induction l as [|[e c|e] l IH]; intros m; cbn [app facrun]; auto. Qed.
Lemma find_snoc l op e : fac_find e (facrun (l ++ [op]) []) =
  match op with
  | Reg e' c => if fe_eqb e e' then match fac_find e (facrun l []) with Some c0 => Some c0 | None => Some c end else fac_find e (facrun l [])
  | Unreg e' => if fe_eqb e' e then None else fac_find e (facrun l [])
  end.
Proof.
  rewrite facrun_app. destruct op as [e' c|e']; cbn [facrun].
  - unfold fac_register. destruct (fe_eqb e e') eqn:E.
    + apply fe_eqb_spec in E. subst e'. destruct (fac_find e (facrun l [])) eqn:F; cbn [fst fac_find]; [exact F|]. rewrite fe_eqb_refl. reflexivity.
    + destruct (fac_find e' (facrun l [])); cbn [fst fac_find]; [reflexivity|]. rewrite E. reflexivity.
  - unfold fac_unregister. cbn [fst]. apply find_filter.
Qed.
Lemma snoc_cases {A} (l : list A) x pre y post : l ++ [x] = pre ++ y :: post ->
  (post = [] /\ pre = l /\ y = x) \/ exists post', post = post' ++ [x] /\ l = pre ++ y :: post'.
Proof.
  intros E. destruct (destruct_list post) as [(z & t & ->)|]. 2: { subst post. apply app_inj_tail in E as [-> ->]. left. auto. }
  destruct (exists_last (l := z :: t) ltac:(discriminate)) as (post' & w & Ez). rewrite Ez in *. right. exists post'.
  rewrite app_comm_cons, app_assoc in E. apply app_inj_tail in E as [-> ->]. auto.
Qed.
Lemma first_snoc_other l op e c : (forall c', op <> Reg e c') -> op <> Unreg e -> first_registered (l ++ [op]) e c <-> first_registered l e c.
Proof.
  intros N1 N2. split.
  - intros (pre & post & E & U & F). apply snoc_cases in E as [(-> & -> & E) | (post' & -> & ->)]; [exfalso; apply (N1 c); auto|].
    exists pre, post'. split; [reflexivity|]. split; [|exact F]. intros K. apply U. apply in_or_app. auto.
  - intros (pre & post & -> & U & F). exists pre, (post ++ [op]). split; [rewrite <- app_assoc; reflexivity|]. split; [|exact F].
    rewrite in_app_iff. cbn. intuition.
Qed.
Lemma find_spec l e : (forall c, fac_find e (facrun l []) = Some c <-> first_registered l e c) /\ (fac_find e (facrun l []) = None <-> none_registered l e).
Proof.
  induction l as [|op l IH] using rev_ind.
  - split; [intros c; split; [discriminate|]|split; [intros _|reflexivity]].
    + intros (pre & post & E & _). destruct pre; discriminate.
    + intros a c b E. destruct a; discriminate.
  - destruct IH as [IH1 IH2]. rewrite find_snoc. destruct op as [e' c'|e'].
    + destruct (fe_eqb e e') eqn:E.
      * apply fe_eqb_spec in E. subst e'. destruct (fac_find e (facrun l [])) as [c0|] eqn:F.
        -- split.
           ++ intros c. rewrite IH1. split.
              ** intros (pre & post & -> & U & Fi). exists pre, (post ++ [Reg e c']). split; [rewrite <- app_assoc; reflexivity|]. split; [|exact Fi].
                 rewrite in_app_iff. cbn. intuition discriminate.
              ** intros (pre & post & E & U & Fi). apply snoc_cases in E as [(-> & -> & E) | (post' & -> & ->)].
                 --- exfalso. assert (K : Some c0 = None) by (apply IH2; exact Fi). discriminate K.
                 --- exists pre, post'. split; [reflexivity|]. split; [|exact Fi]. intros K. apply U. apply in_or_app. auto.
           ++ split; [discriminate|]. intros H. exfalso. specialize (H l c' [] eq_refl). destruct H.
        -- split.
           ++ intros c. split.
              ** intros E. injection E as <-. exists l, []. split; [reflexivity|]. split; [intros []|]. apply IH2. reflexivity.
              ** intros (pre & post & E & U & Fi). apply snoc_cases in E as [(-> & -> & E) | (post' & -> & ->)]; [congruence|].
                 exfalso. apply U. apply in_or_app. left. destruct IH2 as [IH2 _]. apply (IH2 eq_refl pre c post' eq_refl).
           ++ split; [discriminate|]. intros H. exfalso. specialize (H l c' [] eq_refl). destruct H.
      * assert (Ne : e <> e') by (intros ->; rewrite fe_eqb_refl in E; discriminate). split.
        -- intros c. rewrite IH1. symmetry. apply first_snoc_other; congruence.
        -- rewrite IH2. split.
           ++ intros H a c b Q. apply snoc_cases in Q as [(-> & -> & Q) | (post' & -> & Q)]; [congruence|]. apply in_or_app. left. eapply H. exact Q.
           ++ intros H a c b ->. specialize (H a c (b ++ [Reg e' c'])). rewrite <- app_assoc in H. specialize (H eq_refl).
              apply in_app_or in H as [H | [H | []]]; [exact H|discriminate].
    + destruct (fe_eqb e' e) eqn:E.
      * apply fe_eqb_spec in E. subst e'. split.
        -- intros c. split; [discriminate|]. intros (pre & post & Q & U & _). exfalso. apply snoc_cases in Q as [(-> & -> & Q) | (post' & -> & ->)]; [discriminate|].
           apply U. apply in_or_app. cbn. auto.
        -- split; [|reflexivity]. intros _ a c b Q. apply snoc_cases in Q as [(-> & -> & Q) | (post' & -> & Q)]; [discriminate|]. apply in_or_app. cbn. auto.
      * assert (Ne : e <> e') by (intros ->; rewrite fe_eqb_refl in E; discriminate). split.
        -- intros c. rewrite IH1. symmetry. apply first_snoc_other; congruence.
        -- rewrite IH2. split.
           ++ intros H a c b Q. apply snoc_cases in Q as [(-> & -> & Q) | (post' & -> & Q)]; [congruence|]. apply in_or_app. left. eapply H. exact Q.
           ++ intros H a c b ->. specialize (H a c (b ++ [Unreg e'])). rewrite <- app_assoc in H. specialize (H eq_refl).
              apply in_app_or in H as [H | [H | []]]; [exact H|congruence].
Qed.
Theorem create_first l e : (forall c, fac_create e (facrun l []) = Ok c <-> first_registered l e c) /\
  (fac_create e (facrun l []) = Throw (EOther 1) <-> none_registered l e).
Proof.
  destruct (find_spec l e) as [F1 F2]. unfold fac_create. destruct (fac_find e (facrun l [])) as [c0|].
  - split; [intros c; rewrite <- F1; split; congruence|]. rewrite <- F2. split; discriminate.
  - split; [intros c; rewrite <- F1; split; discriminate|]. rewrite <- F2. split; reflexivity.
Qed.
Theorem create_last l e c : registers_once l -> (fac_create e (facrun l []) = Ok c <-> last_registered l e c).
Proof.
  intros R. destruct (create_first l e) as [F _]. rewrite F. split.
  - intros (pre & post & -> & U & Fi). exists pre, post. split; [reflexivity|]. split; [exact U|].
    intros c' K. apply in_split in K as (a & b & ->). apply U. apply in_or_app. left. eapply R. reflexivity.
  - intros (pre & post & -> & U & La). exists pre, post. split; [reflexivity|]. split; [exact U|].
    intros a c' b ->. eapply (R a e c' b c post). rewrite <- app_assoc. reflexivity.
Qed.
End Fac.

(* ---- findings ---- *)
Definition ok_sys : sysres := mkSys (Some 3) (Some (3, 4)) (Some 10) true.
Definition bad_wait : sysres := mkSys None None None false.
Definition idle : sysres := mkSys None None None true.
Definition no_fork : sysres := mkSys (Some 3) (Some (3, 4)) None true.
Definition second_sys : sysres := mkSys (Some 4) (Some (5, 6)) (Some 10) true.
Ltac along_tac := cbn; repeat split; intros; cbn in *; repeat match goal with
  | H : Some _ = Some _ |- _ => injection H; intros; subst; clear H
  | H : None = Some _ |- _ => discriminate H end; cbn in *; intuition (try lia; try discriminate).

Lemma ex_reopen_leak : exists l, along fresh_fds l fs_init /\ along new_pid l fs_init /\ all_closed (frun l fs_init) /\ fds (fs_trace (frun l fs_init)) <> [].
Proof.
  exists [(FNew "a.pbf", ok_sys); (FOpenIn 0, ok_sys); (FOpenIn 0, second_sys); (FDestroy 0, idle)].
  split; [along_tac|]. split; [along_tac|]. split; [|vm_compute; discriminate].
  intros i o H. vm_compute in H. destruct i as [|[|]]; discriminate.
Qed.
Lemma ex_assign_leak : exists l, along fresh_fds l fs_init /\ along new_pid l fs_init /\ all_closed (frun l fs_init) /\ fds (fs_trace (frun l fs_init)) <> [].
Proof.
  exists [(FNew "a.pbf", ok_sys); (FNew "b.pbf", ok_sys); (FOpenIn 0, ok_sys); (FAssign 0 1, idle); (FDestroy 0, idle); (FDestroy 1, idle)].
  split; [along_tac|]. split; [along_tac|]. split; [|vm_compute; discriminate].
  intros i o H. vm_compute in H. destruct i as [|[|[|]]]; discriminate.
Qed.
Lemma ex_fork_leak : exists l, along fresh_fds l fs_init /\ along new_pid l fs_init /\ all_closed (frun l fs_init) /\ List.length (fds (fs_trace (frun l fs_init))) = 2%nat.
Proof.
  exists [(FNew "a.osm.gz", ok_sys); (FOpenIn 0, no_fork); (FDestroy 0, idle)].
  split; [along_tac|]. split; [along_tac|]. split; [|vm_compute; reflexivity].
  intros i o H. vm_compute in H. destruct i as [|[|]]; discriminate.
Qed.
Lemma ex_double_wait : exists l, along fresh_fds l fs_init /\ along new_pid l fs_init /\ ~ waits_running (fs_trace (frun l fs_init)).
Proof.
  exists [(FNew "a.osm.gz", ok_sys); (FOpenIn 0, ok_sys); (FClose 0, bad_wait); (FDestroy 0, idle)].
  split; [along_tac|]. split; [along_tac|]. intros H.
  apply (H [EvPipe 3 4; EvFork 10; EvClose 4; EvClose 3; EvWait 10] 10 []). vm_compute. reflexivity.
Qed.
Lemma ex_shared_child : exists l i j o o', along fresh_fds l fs_init /\ along fresh_pid l fs_init /\ i <> j /\
  obj (frun l fs_init) i = Some o /\ obj (frun l fs_init) j = Some o' /\ of_child o <> 0 /\ of_child o = of_child o'.
Proof.
  exists [(FNew "a.osm.gz", ok_sys); (FNew "b.osm.gz", ok_sys); (FOpenIn 0, ok_sys); (FClose 0, bad_wait); (FOpenIn 1, second_sys)], 0%nat, 1%nat.
  do 2 eexists. split; [along_tac|]. split; [along_tac|]. split; [lia|]. split; [vm_compute; reflexivity|]. split; [vm_compute; reflexivity|].
  split; [cbn; lia|reflexivity].
Qed.
Lemma ex_double_close_stdin : exists l, along fresh_fds l fs_init /\ exists pre mid post, fs_trace (frun l fs_init) = pre ++ EvClose 0 :: mid ++ EvClose 0 :: post /\ ~ In (EvOpen 0) mid.
Proof.
  exists [(FNew "", ok_sys); (FNew "-", ok_sys); (FOpenIn 0, ok_sys); (FOpenIn 1, ok_sys); (FClose 0, idle); (FClose 1, idle)].
  split; [along_tac|]. exists [], [], []. split; [vm_compute; reflexivity|intros []].
Qed.
Lemma ex_no_suffix : exists name, ~ has "." name /\ of_enc (osmfile_new name) = FeXML /\ ~ url name.
Proof.
  exists "osm"%string. split; [apply find_first_none; reflexivity|]. split; [reflexivity|].
  intros (r & [H|H]); discriminate.
Qed.
Lemma ex_http_file : exists name, ~ url name /\ ~ has ":" name /\ of_enc (osmfile_new name) = FeXML /\
  (forall sy o, of_name o = name -> of_enc o = FeXML -> open_for_input sy o = execute true sy o).
Proof.
  exists "http"%string. split; [intros (r & [H|H]); discriminate|]. split; [apply find_first_none; reflexivity|]. split; [reflexivity|].
  intros sy o E1 E2. unfold open_for_input. rewrite E1, E2. reflexivity.
Qed.
Lemma ex_osc_pbf : exists o, ~ url (of_name o) /\ of_type (osmfile_new (filename_with_default_suffix o)) <> of_type o.
Proof.
  exists (mkOF FtChange FePBF "x.osc.pbf" (-1) 0). split; [intros (r & [H|H]); discriminate|]. vm_compute. discriminate.
Qed.
Lemma ex_directory_dot : exists name, name = "./data/x.osm"%string /\ filename_with_default_suffix (osmfile_new name) = ".osm"%string.
Proof. eexists. split; [reflexivity|]. vm_compute. reflexivity. Qed.
Lemma ex_first_wins : exists (l : list (facop Z)) (c : Z), last_registered l FeXML c /\ fac_create FeXML (facrun l []) <> Ok c.
Proof.
  exists [Reg FeXML 1; Reg FeXML 2], 2. split; [|vm_compute; discriminate].
  exists [Reg FeXML 1], []. split; [reflexivity|]. split; [intros []|intros c []].
Qed.
Lemma set_filename : forall o n, of_set_name "-" o = of_set_name "" o /\
  (n <> "-"%string -> of_name (of_set_name n o) = n) /\
  of_type (of_set_name n o) = of_type o /\ of_enc (of_set_name n o) = of_enc o /\ of_fd (of_set_name n o) = of_fd o /\ of_child (of_set_name n o) = of_child o.
Proof.
  intros o n. split; [reflexivity|]. split; [|repeat split]. intros H. unfold of_set_name. cbn [of_name].
  destruct (String.eqb n "-") eqn:E; [apply String.eqb_eq in E; congruence|reflexivity].
Qed.

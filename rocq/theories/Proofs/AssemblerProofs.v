(** Proofs about Model/Assembler.v: passes 1 and 2 of the relation assembler. *)
From Verif Require Import Base.Prelude Model.Osm Model.Handler Model.Assembler
  Spec.HandlerSpec Spec.AssemblerSpec Proofs.HandlerProofs Proofs.Handler2Proofs.

(* ---- lists ---- *)
Lemma set_nth_length {A} n (x : A) l : List.length (set_nth n x l) = List.length l.
Proof. revert n; induction l; destruct n; cbn; auto. Qed.
Lemma set_nth_get {A} n (x : A) l m :
  nth_error (set_nth n x l) m = if (m =? n)%nat then (if (n <? List.length l)%nat then Some x else None) else nth_error l m.
Proof.
  revert n m; induction l as [|y l IH]; intros n m.
  - destruct n; cbn; destruct m; cbn; try reflexivity; destruct (_ =? _)%nat; reflexivity.
  - destruct n, m; cbn [set_nth nth_error]; try reflexivity.
    rewrite IH. cbn [List.length]. change (S m =? S n)%nat with (m =? n)%nat. change (S n <? S (List.length l))%nat with (n <? List.length l)%nat.
    reflexivity.
Qed.
Lemma nth_error_ext {A} (l l' : list A) : (forall n, nth_error l n = nth_error l' n) -> l = l'.
Proof.
  revert l'; induction l as [|x l IH]; intros [|y l'] H; auto.
  - specialize (H 0%nat); discriminate.
  - specialize (H 0%nat); discriminate.
  - pose proof (H 0%nat) as H0. injection H0 as ->. f_equal. apply IH. intros n. apply (H (S n)).
Qed.
Lemma set_nth_map_seq {A} (g : nat -> A) n x len :
  (n < len)%nat -> set_nth n x (map g (seq 0 len)) = map (fun i => if (i =? n)%nat then x else g i) (seq 0 len).
Proof.
  intros H. apply nth_error_ext. intros m. rewrite set_nth_get, map_length, seq_length.
  destruct (Nat.ltb_spec n len); [|lia].
  rewrite !nth_error_map. destruct (Nat.eqb_spec m n) as [->|D].
  - rewrite (nth_error_nth' _ 0%nat) by (rewrite seq_length; lia). rewrite seq_nth by lia. cbn. now rewrite Nat.eqb_refl.
  - destruct (lt_dec m len).
    + rewrite (nth_error_nth' (seq 0 len) 0%nat) by (rewrite seq_length; lia). rewrite seq_nth by lia. cbn.
      destruct (Nat.eqb_spec m n); [lia|reflexivity].
    + assert (nth_error (seq 0 len) m = None) as -> by (apply nth_error_None; rewrite seq_length; lia). reflexivity.
Qed.
Lemma filter_minus_one {A} (p p' : A -> bool) x l :
  NoDup l -> In x l -> p x = true -> p' x = false -> (forall y, y <> x -> p' y = p y) ->
  List.length (filter p l) = S (List.length (filter p' l)).
Proof.
  intros N I Px Px' O. induction N as [|y l Hy N IH]; [destruct I|]. cbn.
  destruct I as [->|I].
  - rewrite Px, Px'. cbn. f_equal. f_equal. apply filter_ext_in. intros z Hz. symmetry; apply O. intros ->; auto.
  - rewrite O by (intros ->; auto). destruct (p y); cbn; auto.
Qed.
Lemma filter_none_length {A} (p : A -> bool) l : List.length (filter p l) = 0%nat <-> forall x, In x l -> p x = false.
Proof.
  split.
  - intros H x Hx. destruct (p x) eqn:E; auto. assert (In x (filter p l)) by (apply filter_In; auto).
    destruct (filter p l); cbn in *; [tauto|lia].
  - intros H. induction l; cbn; auto. rewrite H by (left; auto). apply IHl. intros; apply H; right; auto.
Qed.

Section Proofs.
  Variable keep : relation -> member -> bool.

  Definition kept (r : relation) (i : nat) : bool :=
    match nth_error (r_members r) i with Some m => keep r m | None => false end.
  Definition none (x : option object) : bool := match x with None => true | Some _ => false end.
  Definition missing (r : relation) (g : nat -> option object) : nat :=
    List.length (filter (fun i => kept r i && none (g i)) (seq 0 (List.length (r_members r)))).
  Definition somekept (r : relation) : bool := existsb (kept r) (seq 0 (List.length (r_members r))).
  Definition full (r : relation) (g : nat -> option object) : bool := somekept r && (missing r g =? 0)%nat.
  Definition status (r : relation) (g : nat -> option object) : rinfo :=
    if full r g then ri_empty
    else mkRI (Some r) (map g (seq 0 (List.length (r_members r)))) (Z.of_nat (missing r g)).

  Lemma kept_lt r i : kept r i = true -> (i < List.length (r_members r))%nat.
  Proof. unfold kept. intros H. destruct (nth_error (r_members r) i) eqn:E; [|discriminate]. apply nth_error_Some. congruence. Qed.
  Lemma status_ext r g g' : (forall i, (i < List.length (r_members r))%nat -> g i = g' i) -> status r g = status r g' /\ full r g = full r g'.
  Proof.
    intros H. assert (M : missing r g = missing r g').
    { unfold missing. f_equal. apply filter_ext_in. intros i Hi. apply in_seq in Hi. rewrite H by lia. reflexivity. }
    assert (F : full r g = full r g') by (unfold full; now rewrite M). split; auto.
    unfold status. rewrite F, M. destruct (full r g'); auto. f_equal. apply map_ext_in. intros i Hi. apply in_seq in Hi. apply H; lia.
  Qed.
  Lemma full_spec r g : full r g = true <->
    (exists i, kept r i = true) /\ forall i, kept r i = true -> g i <> None.
  Proof.
    unfold full, somekept. rewrite andb_true_iff, existsb_exists, Nat.eqb_eq. unfold missing. rewrite filter_none_length. split.
    - intros [(i & _ & Hi) H]. split; [eauto|]. intros k Hk. specialize (H k). rewrite Hk in H. cbn in H.
      intros E. rewrite E in H. cbn in H. assert (true = false); [|discriminate]. apply H. apply in_seq. apply kept_lt in Hk. lia.
    - intros [(i & Hi) H]. split; [exists i; split; auto; apply in_seq; apply kept_lt in Hi; lia|].
      intros k _. destruct (kept r k) eqn:E; auto. specialize (H k E). cbn. destruct (g k); [reflexivity|congruence].
  Qed.

  Definition upd (g : nat -> option object) (i : nat) (o : object) : nat -> option object :=
    fun k => if (k =? i)%nat then Some o else g k.
  Lemma status_step r g i o : kept r i = true -> g i = None ->
    let m := map (upd g i o) (seq 0 (List.length (r_members r))) in
    exists n, ri_add_member (status r g) o i = Ok (mkRI (Some r) m n, full r (upd g i o)) /\
      ri_rel (status r g) = Some r /\ full r g = false /\
      (if full r (upd g i o) then ri_empty else mkRI (Some r) m n) = status r (upd g i o).
  Proof.
    intros K G m. pose proof (kept_lt _ _ K) as L.
    assert (M : missing r g = S (missing r (upd g i o))).
    { unfold missing. apply (filter_minus_one _ _ i).
      - apply seq_NoDup.
      - apply in_seq; lia.
      - now rewrite K, G.
      - unfold upd. rewrite Nat.eqb_refl. cbn. apply andb_false_r.
      - intros y Hy. unfold upd. destruct (Nat.eqb_spec y i); [congruence|reflexivity]. }
    assert (Sk : somekept r = true) by (apply existsb_exists; exists i; split; auto; apply in_seq; lia).
    assert (F : full r g = false) by (unfold full; rewrite M; cbn; apply andb_false_r).
    exists (Z.of_nat (missing r (upd g i o))). unfold status at 1 2. rewrite F. unfold ri_add_member. cbn [ri_need ri_rel ri_members].
    destruct (Z.leb_spec (Z.of_nat (missing r g)) 0); [lia|].
    destruct (Nat.ltb_spec i (List.length (r_members r))); [|lia].
    rewrite set_nth_map_seq by auto. fold (upd g i o).
    replace (Z.of_nat (missing r g) - 1) with (Z.of_nat (missing r (upd g i o))) by lia.
    split; [|split; [reflexivity|split; [reflexivity|]]].
    - f_equal. f_equal. unfold full. rewrite Sk. cbn. destruct (Nat.eqb_spec (missing r (upd g i o)) 0); lia.
    - unfold status. reflexivity.
  Qed.

  (* ---- the loop over the member infos ---- *)
  Variable sel : list relation.
  Definition rels_ok (f : nat -> nat -> option object) (rels : list rinfo) : Prop :=
    List.length rels = List.length sel /\ forall j r, nth_error sel j = Some r -> nth_error rels j = Some (status r (f j)).
  Definition fill (f : nat -> nat -> option object) (o : object) (R : list minfo) : nat -> nat -> option object :=
    fun j i => if existsb (fun m => (mi_rel m =? j)%nat && (mi_pos m =? i)%nat) R then Some o else f j i.
  Definition pending (f : nat -> nat -> option object) (o : object) (m : minfo) : Prop :=
    mi_id m = obj_id o /\ exists r, nth_error sel (mi_rel m) = Some r /\ kept r (mi_pos m) = true /\ f (mi_rel m) (mi_pos m) = None.

  Lemma add_object_spec o : forall R f rels, rels_ok f rels -> NoDup R -> (forall m, In m R -> pending f o m) ->
    exists rels' es, add_object o R rels = Ok (rels', es) /\ rels_ok (fill f o R) rels' /\ NoDup es /\
      forall e, In e es <-> exists j r, nth_error sel j = Some r /\ full r (fill f o R j) = true /\ full r (f j) = false /\
        e = EComplete j r (map (fill f o R j) (seq 0 (List.length (r_members r)))).
  Proof.
    induction R as [|m R IH]; intros f rels [RL RO] N Pd.
    - exists rels, []. split; [reflexivity|]. split; [split; auto|]. split; [constructor|].
      intros e; split; [intros []|]. intros (j & r & Hj & H1 & H2 & _). unfold fill in H1. cbn in H1.
      change (fun i => f j i) with (f j) in H1. congruence.
    - cbn [add_object]. destruct (Pd m (or_introl eq_refl)) as (Eid & r & Hr & K & Fn).
      rewrite Eid, Z.eqb_refl. cbn [negb]. rewrite (RO _ _ Hr).
      destruct (status_step r (f (mi_rel m)) (mi_pos m) o K Fn) as (n & A & B & C & D).
      rewrite B. pose proof (kept_lt _ _ K) as L. destruct (Nat.ltb_spec (mi_pos m) (List.length (r_members r))); [|lia].
      rewrite A. cbn [obind]. rewrite D.
      set (f1 := fun j => if (j =? mi_rel m)%nat then upd (f j) (mi_pos m) o else f j).
      assert (O1 : rels_ok f1 (set_nth (mi_rel m) (status r (upd (f (mi_rel m)) (mi_pos m) o)) rels)).
      { split; [now rewrite set_nth_length|]. intros j r' Hj. rewrite set_nth_get. unfold f1.
        destruct (Nat.eqb_spec j (mi_rel m)) as [->|Dj].
        - rewrite Hr in Hj. injection Hj as <-. assert (mi_rel m < List.length sel)%nat by (apply nth_error_Some; congruence).
          destruct (Nat.ltb_spec (mi_rel m) (List.length rels)); [reflexivity|lia].
        - auto. }
      inversion N as [|? ? Nm N']; subst.
      assert (P1 : forall x, In x R -> pending f1 o x).
      { intros x Hx. destruct (Pd x (or_intror Hx)) as (E1 & r1 & Hr1 & K1 & F1). split; auto. exists r1. split; auto. split; auto.
        unfold f1. destruct (Nat.eqb_spec (mi_rel x) (mi_rel m)) as [Ej|]; auto.
        unfold upd. destruct (Nat.eqb_spec (mi_pos x) (mi_pos m)) as [Ep|]; auto.
        exfalso. apply Nm. destruct x, m; cbn in *. subst. auto. }
      destruct (IH f1 _ O1 N' P1) as (rels' & es & Q1 & Q2 & Q3 & Q4).
      rewrite Q1. cbn [obind].
      assert (FE : forall j i, fill f1 o R j i = fill f o (m :: R) j i).
      { intros j i. unfold fill, f1, upd. cbn [existsb].
        destruct (existsb (fun m0 => (mi_rel m0 =? j)%nat && (mi_pos m0 =? i)%nat) R) eqn:EX; [now rewrite orb_true_r|].
        rewrite orb_false_r, (Nat.eqb_sym j).
        destruct (mi_rel m =? j)%nat; [|reflexivity]. cbn. rewrite (Nat.eqb_sym i). destruct (mi_pos m =? i)%nat; reflexivity. }
      assert (FF : forall j r', full r' (fill f1 o R j) = full r' (fill f o (m :: R) j)).
      { intros. apply status_ext. intros. apply FE. }
      assert (FM : forall j (l : list nat), map (fill f1 o R j) l = map (fill f o (m :: R) j) l).
      { intros. apply map_ext. intros. apply FE. }
      (* once complete, a relation gets nothing more *)
      assert (Last : full r (f1 (mi_rel m)) = true -> forall i, fill f1 o R (mi_rel m) i = f1 (mi_rel m) i).
      { intros Fu i. unfold fill. destruct (existsb _ R) eqn:EX; [|reflexivity].
        apply existsb_exists in EX as (x & Hx & Ex). apply andb_true_iff in Ex as [Ex1 Ex2].
        apply Nat.eqb_eq in Ex1, Ex2. destruct (P1 x Hx) as (_ & r1 & Hr1 & K1 & F1).
        rewrite Ex1 in *. rewrite Hr in Hr1. injection Hr1 as <-. apply full_spec in Fu as [_ Fu]. destruct (Fu _ K1 F1). }
      assert (F1m : f1 (mi_rel m) = upd (f (mi_rel m)) (mi_pos m) o) by (unfold f1; now rewrite Nat.eqb_refl).
      eexists rels', _. split; [reflexivity|]. split; [|split].
      + split; [apply Q2|]. intros j r' Hj. rewrite (proj2 Q2 _ _ Hj). f_equal. apply status_ext. intros; apply FE.
      + rewrite <- F1m. destruct (full r (f1 (mi_rel m))) eqn:Fu; cbn [app]; auto. constructor; auto.
        rewrite Q4. intros (j & r' & Hj & H1 & H2 & E). injection E as Ej Er _. subst. congruence.
      + intros e. rewrite in_app_iff, Q4. rewrite <- F1m. split.
        * intros [H0|(j & r' & Hj & H1 & H2 & ->)].
          -- destruct (full r (f1 (mi_rel m))) eqn:Fu; [|destruct H0]. destruct H0 as [<-|[]].
             exists (mi_rel m), r. split; auto. split; [|split; auto].
             ++ rewrite <- FF. rewrite <- Fu. apply status_ext. intros; now apply Last.
             ++ f_equal. cbn [ri_members]. rewrite <- FM. apply map_ext. intros; symmetry; now apply Last.
          -- exists j, r'. split; auto. rewrite <- FF. split; auto. split; [|now rewrite FM].
             unfold f1 in H2. destruct (Nat.eqb_spec j (mi_rel m)) as [->|]; auto. congruence.
        * intros (j & r' & Hj & H1 & H2 & ->). rewrite <- FF in H1. rewrite <- FM.
          destruct (full r' (f1 j)) eqn:Fu; [|right; exists j, r'; auto].
          unfold f1 in Fu. destruct (Nat.eqb_spec j (mi_rel m)) as [->|]; [|congruence].
          rewrite Hr in Hj. injection Hj as <-. rewrite <- F1m in Fu. rewrite Fu. left. left. f_equal. cbn [ri_members].
          apply map_ext. intros; symmetry; now apply Last.
  Qed.
End Proofs.

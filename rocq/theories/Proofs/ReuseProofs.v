(** Objects kept by handlers never change. *)
From Verif Require Import Base.Prelude Model.Osm Model.Reuse Spec.HandlerSpec Spec.ReuseSpec.

Definition inv (w : world) : Prop := forall a, In a (w_held w) -> (a < w_next w)%nat.
Definition slots_inv (w : world) : Prop := forall t a, sl_get t (w_slots w) = Some a -> (a < w_next w)%nat.

Lemma sl_get_put t t' x s : object_type t -> sl_get t' (sl_put t x s) = if otype_eqb t' t then x else sl_get t' s.
Proof. intros [->|[->| ->]]; destruct t'; reflexivity. Qed.
Lemma otype_eqb_refl a : otype_eqb a a = true.
Proof. destruct a; reflexivity. Qed.

Lemma existsb_in a l : existsb (Nat.eqb a) l = true <-> In a l.
Proof.
  rewrite existsb_exists. split.
  - intros (x & H & E). apply Nat.eqb_eq in E; congruence.
  - intros H; exists a; split; auto. apply Nat.eqb_refl.
Qed.

(** after prepare, the reader's object is held by nobody *)
Lemma prepare_spec t w : object_type t -> inv w -> slots_inv w ->
  inv (prepare t w) /\ slots_inv (prepare t w) /\ w_held (prepare t w) = w_held w /\
  (exists a, sl_get t (w_slots (prepare t w)) = Some a /\ ~ In a (w_held w)) /\
  (forall a, In a (w_held w) -> w_mem (prepare t w) a = w_mem w a).
Proof.
  intros Tt I SI.
  assert (Fresh : forall a, In a (w_held w) -> mem_put (w_mem w) (w_next w) (fresh t) a = w_mem w a).
  { intros a Ha. unfold mem_put. destruct (Nat.eqb_spec a (w_next w)); auto. specialize (I a Ha). lia. }
  assert (New : let w' := mkW (mem_put (w_mem w) (w_next w) (fresh t)) (S (w_next w)) (sl_put t (Some (w_next w)) (w_slots w)) (w_held w) in
    inv w' /\ slots_inv w' /\ (exists a, sl_get t (w_slots w') = Some a /\ ~ In a (w_held w))).
  { cbn. split; [|split].
    - intros a Ha; cbn in *. specialize (I a Ha). lia.
    - intros t' a; cbn. rewrite sl_get_put by auto. destruct (otype_eqb t' t).
      + intros [= <-]; lia. + intros H; specialize (SI _ _ H); lia.
    - exists (w_next w). rewrite sl_get_put, otype_eqb_refl by auto. split; auto. intros H; specialize (I _ H); lia. }
  unfold prepare. destruct (sl_get t (w_slots w)) as [a|] eqn:E.
  - destruct (existsb (Nat.eqb a) (w_held w)) eqn:X.
    + destruct New as (A & B & C). split; [exact A|]. split; [exact B|]. split; [reflexivity|]. split; [exact C|exact Fresh].
    + assert (Na : ~ In a (w_held w)) by (intros H; apply existsb_in in H; congruence).
      split; [exact I|]. split; [exact SI|]. split; [reflexivity|]. split; [exists a; auto|]. cbn. intros b Hb. unfold mem_put.
      destruct (Nat.eqb_spec b a); auto. congruence.
  - destruct New as (A & B & C). split; [exact A|]. split; [exact B|]. split; [reflexivity|]. split; [exact C|exact Fresh].
Qed.

Lemma writes_spec t xs : (forall x, In x xs -> fst x = t) -> forall w a, sl_get t (w_slots w) = Some a -> ~ In a (w_held w) ->
  let w' := fold_left (fun w x => write x w) xs w in
  w_held w' = w_held w /\ w_next w' = w_next w /\ w_slots w' = w_slots w /\
  (forall b, In b (w_held w) -> w_mem w' b = w_mem w b).
Proof.
  induction xs as [|x r IH]; intros H w a E N; cbn; [repeat split; auto|].
  assert (W : write x w = mkW (mem_put (w_mem w) a (snd x (w_mem w a))) (w_next w) (w_slots w) (w_held w)).
  { unfold write. rewrite (H x (or_introl eq_refl)), E. reflexivity. }
  rewrite W. set (w1 := mkW _ _ _ _).
  destruct (IH (fun y Hy => H y (or_intror Hy)) w1 a E N) as (A & B & C & D).
  split; [exact A|]. split; [exact B|]. split; [exact C|]. intros b Hb. rewrite D by auto. unfold w1, mem_put; cbn.
  destruct (Nat.eqb_spec b a); auto. congruence.
Qed.

Lemma fill_spec r w : object_type (rd_type r) -> honest r -> writes_own r -> inv w -> slots_inv w ->
  let w' := read_fill r w in
  inv w' /\ slots_inv w' /\ w_held w' = rd_before r (w_held w) /\
  (exists a, sl_get (rd_type r) (w_slots w') = Some a /\ ~ In a (w_held w')) /\
  (forall b, In b (rd_before r (w_held w)) -> w_mem w' b = w_mem w b).
Proof.
  intros Tt [H1 H2] WO I SI. cbv zeta. unfold read_fill.
  assert (I0 : inv (read_before r w)) by (intros a Ha; apply I, H1, Ha).
  destruct (prepare_spec (rd_type r) (read_before r w) Tt I0 SI) as (A & B & C & (a & D1 & D2) & E).
  rewrite <- C in D2.
  destruct (writes_spec (rd_type r) (rd_writes r) WO _ a D1 D2) as (F1 & F2 & F3 & F4).
  repeat split.
  - unfold inv. rewrite F1, F2. exact A.
  - unfold slots_inv. rewrite F2, F3. exact B.
  - rewrite F1, C. reflexivity.
  - exists a. rewrite F3, F1. auto.
  - intros b Hb. rewrite F4; [apply E; exact Hb|]. rewrite C. exact Hb.
Qed.

Lemma one_spec r w : object_type (rd_type r) -> honest r -> writes_own r -> inv w -> slots_inv w ->
  inv (read_one w r) /\ slots_inv (read_one w r) /\
  (forall b, In b (rd_before r (w_held w)) -> w_mem (read_one w r) b = w_mem w b).
Proof.
  intros Tt H WO I SI. destruct (fill_spec r w Tt H WO I SI) as (A & B & C & (a & D1 & D2) & E).
  unfold read_one. rewrite D1. repeat split; auto.
  intros b Hb. cbn in *. apply H in Hb. destruct Hb as [<-|Hb]; [eapply B; eauto|]. apply A; auto.
Qed.


Lemma all_inv rs : (forall r, In r rs -> reading_ok r) -> forall w, inv w -> slots_inv w ->
  inv (read_all w rs) /\ slots_inv (read_all w rs).
Proof.
  induction rs as [|r rs IH]; intros OK w I SI; cbn; auto.
  destruct (OK r (or_introl eq_refl)) as (Tt & H & WO).
  destruct (one_spec r w Tt H WO I SI) as (A & B & _). apply IH; auto. intros; apply OK; right; auto.
Qed.

Lemma held_unchanged rs : (forall r, In r rs -> reading_ok r) -> forall w a, inv w -> slots_inv w ->
  held_through a w rs -> w_mem (read_all w rs) a = w_mem w a.
Proof.
  induction rs as [|r rs IH]; intros OK w a I SI HT; [reflexivity|].
  destruct (OK r (or_introl eq_refl)) as (Tt & H & WO).
  destruct (one_spec r w Tt H WO I SI) as (A & B & C). destruct HT as (HT1 & HT2 & HT3). cbn [read_all fold_left].
  fold (read_all (read_one w r) rs). rewrite (IH (fun x Hx => OK x (or_intror Hx)) _ a A B HT3). apply C. exact HT2.
Qed.

Lemma world_new_inv m : inv (world_new m) /\ slots_inv (world_new m).
Proof. split; [intros a []|]. intros t a; cbn. destruct t; discriminate. Qed.

Theorem kept_never_changes : forall m rs1 r rs2 a o,
  (forall x, In x (rs1 ++ r :: rs2) -> reading_ok x) ->
  let w := read_all (world_new m) rs1 in
  given w r = Some (a, o) -> held_through a (read_one w r) rs2 ->
  w_mem (read_all (world_new m) (rs1 ++ r :: rs2)) a = o.
Proof.
  intros m rs1 r rs2 a o OK w G HT.
  destruct (world_new_inv m) as [I0 SI0].
  destruct (all_inv rs1 (fun x Hx => OK x (in_or_app _ _ _ (or_introl Hx))) _ I0 SI0) as [I SI]. fold w in I, SI.
  destruct (OK r ltac:(apply in_or_app; right; left; reflexivity)) as (Tt & H & WO).
  destruct (one_spec r w Tt H WO I SI) as (A & B & _).
  unfold read_all. rewrite fold_left_app. cbn [fold_left]. fold (read_all (world_new m) rs1). fold w.
  change (w_mem (read_all (read_one w r) rs2) a = o).
  rewrite held_unchanged; auto; [|intros x Hx; apply OK, in_or_app; right; right; auto].
  unfold given in G. unfold read_one. destruct (sl_get (rd_type r) (w_slots (read_fill r w))) as [b|]; [|discriminate].
  injection G as -> <-. reflexivity.
Qed.

Lemma pbf_reading_ok t bef fs aft : object_type t -> (forall l, incl (bef l) l) -> (forall l a, incl (aft l a) (a :: l)) ->
  reading_ok (pbf_reading t bef fs aft).
Proof.
  intros Tt A B. repeat split; auto. intros x Hx. cbn in *. apply in_map_iff in Hx as (f & <- & _). reflexivity.
Qed.
Lemma xml_reading_ok t bef xs aft : object_type t -> (forall l, incl (bef l) l) -> (forall l a, incl (aft l a) (a :: l)) ->
  (t = NODE \/ forall f, ~ In (XLonLat f) xs) -> reading_ok (xml_reading t bef xs aft).
Proof.
  intros Tt A B D. repeat split; auto. intros x Hx. cbn in *. apply in_map_iff in Hx as ([f|f] & <- & Hf); auto.
  destruct D as [->|D]; [reflexivity|]. exfalso; eapply D; eauto.
Qed.

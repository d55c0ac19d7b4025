(** Proofs about Model/Shapefile.v. *)
From Verif Require Import Base.Prelude Model.Osm Model.Geom Model.Shapefile Spec.ShapefileSpec.

(* ---- bits of bytes ---- *)
Definition bytes : list Z := map Z.of_nat (seq 0 256).
Lemma in_bytes b : 0 <= b < 256 -> In b bytes.
Proof. intros H. unfold bytes. apply in_map_iff. exists (Z.to_nat b). split; [lia|]. apply in_seq. lia. Qed.
Lemma land_table b : 0 <= b < 256 ->
  (Z.land b 128 =? 0) = (b <? 128) /\ (128 <= b -> (Z.land b 64 =? 0) = (b <? 192)) /\
  (Z.land b 224 =? 224) = (224 <=? b) /\ (Z.land b 240 =? 240) = (240 <=? b).
Proof.
  intros H.
  assert (T : forallb (fun b => Bool.eqb (Z.land b 128 =? 0) (b <? 128) &&
     ((b <? 128) || Bool.eqb (Z.land b 64 =? 0) (b <? 192)) && Bool.eqb (Z.land b 224 =? 224) (224 <=? b) && Bool.eqb (Z.land b 240 =? 240) (240 <=? b)) bytes = true) by (vm_compute; reflexivity).
  rewrite forallb_forall in T. specialize (T b (in_bytes b H)). apply andb_true_iff in T as [T T4]. apply andb_true_iff in T as [T T3]. apply andb_true_iff in T as [T1 T2].
  apply eqb_prop in T1, T3, T4. rewrite T1, T3, T4. split; auto. split; auto. intros B. apply orb_true_iff in T2 as [T2|T2]; [lia|]. now apply eqb_prop in T2.
Qed.

Lemma strncpy_spec n : forall v, strncpy n v = firstn n v ++ repeat 0 (n - List.length v).
Proof.
  induction n as [|n IH]; intros v; [destruct v; reflexivity|]. cbn [strncpy]. destruct v as [|b v].
  - rewrite IH. cbn. now rewrite firstn_nil, Nat.sub_0_r.
  - rewrite IH. reflexivity.
Qed.
Lemma cstr_zero a r : Forall (fun b => b <> 0) a -> cstr (a ++ 0 :: r) = a.
Proof. induction 1 as [|b a Hb F IH]; cbn [app cstr]; auto. destruct (Z.eqb_spec b 0); [congruence|]. now rewrite IH. Qed.
Lemma put_app a : forall x y r, put (a ++ x :: r) (List.length a) y = a ++ y :: r.
Proof. induction a as [|b a IH]; intros; cbn; auto. now rewrite IH. Qed.
Lemma nth_app_at {A} (a : list A) x r d : nth (List.length a) (a ++ x :: r) d = x.
Proof. rewrite app_nth2, Nat.sub_diag by lia. reflexivity. Qed.

Definition good (b : Z) : Prop := 1 <= b < 256.
Lemma utf8_good c : utf8_char c -> Forall good c.
Proof. intros H; inversion H; subst; unfold cont_byte, good in *; repeat constructor; lia. Qed.
Lemma good_nz l : Forall good l -> Forall (fun b => b <> 0) l.
Proof. apply Forall_impl. unfold good. lia. Qed.
Lemma concat_good cs : Forall utf8_char cs -> Forall good (List.concat cs).
Proof. induction 1; cbn; auto. apply Forall_app. split; auto. now apply utf8_good. Qed.
Lemma utf8_last c : utf8_char c -> exists p b, c = p ++ [b] /\ b < 192.
Proof.
  intros H; inversion H; subst; unfold cont_byte in *.
  - exists [], a. split; auto. lia.
  - exists [a], b. split; auto. lia.
  - exists [a; b], c0. split; auto. lia.
  - exists [a; b; c0], d. split; auto. lia.
Qed.
(** the string up to the width: whole characters and the beginning of one *)
Lemma fitting_split cs : forall n,
  (fitting n cs = cs /\ (List.length (List.concat cs) <= n)%nat) \/
  exists c rest, cs = fitting n cs ++ c :: rest /\ (List.length (List.concat (fitting n cs)) <= n < List.length (List.concat (fitting n cs)) + List.length c)%nat.
Proof.
  induction cs as [|c cs IH]; intros n; cbn [fitting]; [left; split; auto; cbn; lia|].
  destruct (Nat.leb_spec (List.length c) n) as [L|L].
  - destruct (IH (n - List.length c)%nat) as [[E1 E2]|(d & rest & E1 & E2)].
    + left. rewrite E1. split; auto. cbn. rewrite app_length. lia.
    + right. exists d, rest. cbn [app List.concat]. rewrite app_length. split; [now rewrite <- E1|lia].
  - right. exists c, cs. cbn. split; auto. lia.
Qed.
Lemma fitting_utf8 n cs : Forall utf8_char cs -> Forall utf8_char (fitting n cs).
Proof. intros H. revert n. induction H; intros n; cbn; auto. destruct (_ <=? _)%nat; auto. Qed.

Lemma destruct_last {A} (l : list A) : l = [] \/ exists a x, l = a ++ [x].
Proof. destruct l as [|x l] using rev_ind; [now left|right; eauto]. Qed.
(** the dest buffer is [a ++ x :: 0s] with x at the last position of the width *)
Definition tail3 (i : nat) (dest : list Z) : outcome (list Z) :=
  let at_ k := nth k dest 0 in
  if negb (Z.land (at_ i) 128 =? 0) then
    if negb (Z.land (at_ i) 64 =? 0) then Ok (cstr (put dest i 0))
    else match i with
         | O => UB
         | S i1 => if Z.land (at_ i1) 224 =? 224 then Ok (cstr (put dest i1 0))
                   else match i1 with
                        | O => UB
                        | S i2 => if Z.land (at_ i2) 240 =? 240 then Ok (cstr (put dest i2 0)) else Ok (cstr dest)
                        end
         end
  else Ok (cstr dest).
Lemma truncate_tail w v : 0 < w <= 255 -> truncate w v = tail3 (Z.to_nat w - 1) (strncpy (Z.to_nat w) v ++ [0]).
Proof.
  intros H. unfold truncate. destruct (Z.ltb_spec w 0); [lia|]. unfold max_dbf_field_length. destruct (Z.gtb_spec w 255); [lia|]. cbn [orb].
  destruct (Z.to_nat w) as [|i] eqn:E; [lia|]. replace (S i - 1)%nat with i by lia. reflexivity.
Qed.

Lemma tail3_ascii a x r : Forall good a -> 0 <= x < 128 -> tail3 (List.length a) (a ++ x :: r) = Ok (cstr (a ++ x :: r)).
Proof. intros G H. unfold tail3. rewrite nth_app_at, (proj1 (land_table x ltac:(lia))). destruct (Z.ltb_spec x 128); [reflexivity|lia]. Qed.
Lemma tail3_lead a x r : Forall good a -> 192 <= x < 256 -> tail3 (List.length a) (a ++ x :: r) = Ok a.
Proof.
  intros G H. unfold tail3. rewrite nth_app_at. destruct (land_table x ltac:(lia)) as (T1 & T2 & _). rewrite T1, (T2 ltac:(lia)).
  destruct (Z.ltb_spec x 128); [lia|]. destruct (Z.ltb_spec x 192); [lia|]. cbn [negb]. rewrite put_app, cstr_zero; auto. now apply good_nz.
Qed.
Lemma tail3_cont_at a y x r : cont_byte x -> good y ->
  tail3 (S (List.length a)) (a ++ y :: x :: r) =
  if 224 <=? y then Ok (cstr (a ++ 0 :: x :: r))
  else match List.length a with
       | O => UB
       | S i2 => if Z.land (nth i2 (a ++ y :: x :: r) 0) 240 =? 240 then Ok (cstr (put (a ++ y :: x :: r) i2 0)) else Ok (cstr (a ++ y :: x :: r))
       end.
Proof.
  intros Hx Hy. unfold cont_byte, good in *. unfold tail3.
  assert (E : nth (S (List.length a)) (a ++ y :: x :: r) 0 = x).
  { rewrite app_nth2 by lia. replace (S (List.length a) - List.length a)%nat with 1%nat by lia. reflexivity. }
  rewrite E. destruct (land_table x ltac:(lia)) as (T1 & T2 & _). rewrite T1, (T2 ltac:(lia)).
  destruct (Z.ltb_spec x 128); [lia|]. destruct (Z.ltb_spec x 192); [|lia]. cbn [negb].
  rewrite nth_app_at. destruct (land_table y ltac:(lia)) as (_ & _ & T3 & _). rewrite T3. now rewrite put_app.
Qed.
Lemma tail3_cont2 a y x r : Forall good a -> cont_byte x -> 224 <= y < 256 -> tail3 (S (List.length a)) (a ++ y :: x :: r) = Ok a.
Proof.
  intros G Hx Hy. rewrite tail3_cont_at by (auto; unfold good; lia). destruct (Z.leb_spec 224 y); [|lia]. rewrite cstr_zero; auto. now apply good_nz.
Qed.
Lemma tail3_cont3 a z y x r : Forall good a -> cont_byte x -> 128 <= y < 224 -> good z ->
  tail3 (S (S (List.length a))) (a ++ z :: y :: x :: r) = if 240 <=? z then Ok a else Ok (cstr (a ++ z :: y :: x :: r)).
Proof.
  intros G Hx Hy Hz. pose proof (tail3_cont_at (a ++ [z]) y x r Hx ltac:(unfold good; lia)) as H.
  rewrite <- !app_assoc in H. cbn [app] in H. rewrite app_length in H. cbn [List.length] in H. rewrite Nat.add_1_r in H. rewrite H.
  destruct (Z.leb_spec 224 y); [lia|]. rewrite nth_app_at. unfold good in Hz. destruct (land_table z ltac:(lia)) as (_ & _ & _ & T4). rewrite T4.
  destruct (Z.leb_spec 240 z); auto. rewrite put_app, cstr_zero; auto. now apply good_nz.
Qed.
Lemma exact_chars cs n : (3 <= n)%nat -> Forall utf8_char cs -> List.length (List.concat cs) = n ->
  tail3 (n - 1) (List.concat cs ++ [0]) = Ok (List.concat cs).
Proof.
  intros Ln U En. pose proof (concat_good _ U) as G0.
  rewrite <- (cstr_zero (List.concat cs) []) at 2 by (now apply good_nz).
  destruct cs as [|c0 cs0 _] using rev_ind; [cbn in En; lia|]. rewrite concat_app in *. cbn [List.concat] in *. rewrite app_nil_r in *.
  apply Forall_app in U as [U1 U2]. inversion U2 as [|? ? Uc _]; subst. pose proof (concat_good _ U1) as G1. set (a := List.concat cs0) in *. rewrite app_length in *.
  inversion Uc as [x Hx Ex|x y Hx Hy Ex|x y z Hx Hy Hz Ex|x y z t Hx Hy Hz Ht Ex]; subst; cbn [List.length] in *; unfold cont_byte in *; rewrite <- !app_assoc; cbn [app].
  - replace (List.length a + 1 - 1)%nat with (List.length a) by lia. apply tail3_ascii; auto; lia.
  - destruct (destruct_last a) as [Ea|(a' & l & Ea)]; [rewrite Ea in Ln; cbn in Ln; lia|].
    assert (Hl : 1 <= l < 192).
    { subst a. destruct cs0 as [|d cs1 _] using rev_ind; [cbn in Ea; destruct a'; discriminate|]. rewrite concat_app in Ea. cbn [List.concat] in Ea. rewrite app_nil_r in Ea.
      apply Forall_app in U1 as [_ U1]. inversion U1 as [|? ? Ud _]; subst. pose proof (utf8_good _ Ud) as Gd. destruct (utf8_last d Ud) as (p & b & -> & Hb).
      rewrite app_assoc in Ea. apply app_inj_tail in Ea as [_ <-]. apply Forall_app in Gd as [_ Gd]. inversion Gd; subst. unfold good in *. lia. }
    clearbody a. subst a. rewrite app_length. cbn [List.length]. replace (List.length a' + 1 + 2 - 1)%nat with (S (S (List.length a'))) by lia.
    rewrite <- !app_assoc. cbn [app]. apply Forall_app in G1 as [G1 _]. rewrite tail3_cont3; auto; unfold cont_byte, good; try lia.
    destruct (Z.leb_spec 240 l); [lia|]. reflexivity.
  - replace (List.length a + 3 - 1)%nat with (S (S (List.length a))) by lia. rewrite tail3_cont3; auto; unfold cont_byte, good; try lia.
    destruct (Z.leb_spec 240 x); [lia|]. reflexivity.
  - replace (List.length a + 4 - 1)%nat with (S (S (List.length (a ++ [x])))) by (rewrite app_length; cbn; lia).
    replace (a ++ [x; y; z; t; 0]) with ((a ++ [x]) ++ y :: z :: t :: [0]) by (rewrite <- !app_assoc; reflexivity).
    rewrite tail3_cont3; unfold cont_byte, good; try lia.
    { destruct (Z.leb_spec 240 y); [lia|]. reflexivity. }
    { apply Forall_app. split; auto. repeat constructor; unfold good; lia. }
Qed.
Lemma truncate_thm w cs : 3 <= w <= 255 -> Forall utf8_char cs ->
  truncate w (List.concat cs) = Ok (List.concat (fitting (Z.to_nat w) cs)).
Proof.
  intros Hw U. rewrite truncate_tail by lia. set (n := Z.to_nat w). assert (Ln : (3 <= n)%nat) by lia.
  rewrite strncpy_spec. pose proof (fitting_utf8 n cs U) as Uf. pose proof (concat_good _ Uf) as Gf.
  destruct (fitting_split cs n) as [[E L]|(c & rest & E & L)].
  - (* everything fits *)
    rewrite E in *. rewrite firstn_all2 by exact L. set (v := List.concat cs) in *.
    destruct (Nat.eq_dec (List.length v) n) as [En|En].
    + (* exactly *)
      rewrite En, Nat.sub_diag. cbn [repeat]. rewrite app_nil_r. subst v. now apply exact_chars.
    + (* with room *)
      assert (Ek : exists k, (n - List.length v)%nat = S k) by (exists (n - List.length v - 1)%nat; lia). destruct Ek as [k Ek]. rewrite Ek.
      assert (Er : repeat 0 (S k) = repeat 0 k ++ [0]). { apply repeat_cons. }
      assert (Ns : nth (n - 1) ((v ++ repeat 0 (S k)) ++ [0]) 0 = 0).
      { rewrite Er, app_assoc, <- app_assoc. replace (n - 1)%nat with (List.length (v ++ repeat 0 k)) by (rewrite app_length, repeat_length; lia). apply nth_app_at. }
      unfold tail3. rewrite Ns. change (Z.land 0 128 =? 0) with true. cbn [negb]. cbn [repeat]. rewrite <- app_assoc. cbn [app]. rewrite cstr_zero; auto. now apply good_nz.
  - (* the beginning of a character *)
    set (f := fitting n cs) in *. set (a := List.concat f) in *.
    assert (Uc : utf8_char c) by (rewrite E in U; apply Forall_app in U as [_ U]; now inversion U).
    assert (Ev : List.concat cs = a ++ c ++ List.concat rest) by (rewrite E at 1; rewrite concat_app; reflexivity).
    assert (Lv : (n - List.length (List.concat cs) = 0)%nat) by (rewrite Ev, !app_length; lia). rewrite Lv. cbn [repeat]. rewrite app_nil_r.
    destruct (Nat.eq_dec (List.length a) n) as [En|En].
    + (* complete *)
      assert (Ef : firstn n (List.concat cs) = a). { rewrite Ev, firstn_app, firstn_all2 by lia. replace (n - List.length a)%nat with 0%nat by lia. cbn [firstn]. apply app_nil_r. }
      rewrite Ef. unfold a. now apply exact_chars.
    + assert (Ef : firstn n (List.concat cs) = a ++ firstn (n - List.length a) c).
      { rewrite Ev, firstn_app, firstn_all2 by lia. f_equal. rewrite firstn_app. replace (n - List.length a - List.length c)%nat with 0%nat by lia. cbn [firstn]. apply app_nil_r. }
      rewrite Ef, <- app_assoc. assert (Ek : exists k, (n - List.length a)%nat = S k) by (exists (n - List.length a - 1)%nat; lia). destruct Ek as [k Ek]. rewrite Ek.
      inversion Uc as [x Hx Ex|x y Hx Hy Ex|x y z Hx Hy Hz Ex|x y z t Hx Hy Hz Ht Ex]; subst c; cbn [List.length] in L; unfold cont_byte in *.
      * exfalso. lia.
      * assert (k = 0%nat) as -> by lia. cbn [firstn app]. replace (n - 1)%nat with (List.length a) by lia. apply tail3_lead; auto; lia.
      * assert (k = 0%nat \/ k = 1%nat) as [-> | ->] by lia; cbn [firstn app].
        { replace (n - 1)%nat with (List.length a) by lia. apply tail3_lead; auto; lia. }
        { replace (n - 1)%nat with (S (List.length a)) by lia. apply tail3_cont2; auto; lia. }
      * assert (k = 0%nat \/ k = 1%nat \/ k = 2%nat) as [-> |[-> | ->]] by lia; cbn [firstn app].
        { replace (n - 1)%nat with (List.length a) by lia. apply tail3_lead; auto; lia. }
        { replace (n - 1)%nat with (S (List.length a)) by lia. apply tail3_cont2; auto; lia. }
        { replace (n - 1)%nat with (S (S (List.length a))) by lia. rewrite tail3_cont3; auto; unfold good; try lia. destruct (Z.leb_spec 240 x); [reflexivity|lia]. }
Qed.

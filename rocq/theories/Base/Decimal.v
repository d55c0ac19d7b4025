(** Decimal numbers as text.  No osmium content. *)
From Verif Require Import Base.Prelude.

Definition is_digit (c : ascii) : bool := (48 <=? N_of_ascii c)%N && (N_of_ascii c <=? 57)%N.
Definition digit_val (c : ascii) : Z := Z.of_N (N_of_ascii c) - 48.
Definition digit_char (d : Z) : ascii := ascii_of_N (Z.to_N (48 + d)).
(** isspace() in the C locale *)
Definition is_space (c : ascii) : bool := (N_of_ascii c =? 32)%N || ((9 <=? N_of_ascii c)%N && (N_of_ascii c <=? 13)%N).

(** printf("%d"), ("%lld"), ("%u"): shortest decimal form *)
Fixpoint print_digits (fuel : nat) (n : Z) : string :=
  match fuel with
  | O => String (digit_char (n mod 10)) EmptyString
  | S f => if n <? 10 then String (digit_char n) EmptyString
           else (print_digits f (n / 10) ++ String (digit_char (n mod 10)) EmptyString)%string
  end.
Definition print_nonneg (n : Z) : string := print_digits (Z.to_nat (Z.log2 n)) n.
Definition print_Z (n : Z) : string := if n <? 0 then String "-" (print_nonneg (- n)) else print_nonneg n.
(** printf("%02d") for 0 <= n < 100 and ("%04d") for 0 <= n < 10000 *)
Definition print2 (n : Z) : string := String (digit_char (n / 10)) (String (digit_char (n mod 10)) EmptyString).
Definition print4 (n : Z) : string := (print2 (n / 100) ++ print2 (n mod 100))%string.

(** read decimal digits *)
Fixpoint scan_digits (s : string) (acc : Z) : Z * string :=
  match s with
  | String c r => if is_digit c then scan_digits r (acc * 10 + digit_val c) else (acc, s)
  | EmptyString => (acc, EmptyString)
  end.
Definition starts_digit (s : string) : bool := match s with String c _ => is_digit c | EmptyString => false end.

Lemma N_ascii_small n : (n < 256)%N -> N_of_ascii (ascii_of_N n) = n.
Proof. intros. apply N_ascii_embedding. exact H. Qed.
Lemma digit_char_code d : 0 <= d < 10 -> N_of_ascii (digit_char d) = Z.to_N (48 + d).
Proof. intros H. unfold digit_char. apply N_ascii_small. lia. Qed.
Lemma digit_char_digit d : 0 <= d < 10 -> is_digit (digit_char d) = true.
Proof. intros H. unfold is_digit. rewrite digit_char_code by exact H. apply andb_true_intro. split; apply N.leb_le; lia. Qed.
Lemma digit_char_val d : 0 <= d < 10 -> digit_val (digit_char d) = d.
Proof. intros H. unfold digit_val. rewrite digit_char_code by exact H. lia. Qed.
Lemma digit_not_space c : is_digit c = true -> is_space c = false.
Proof. unfold is_digit, is_space. lia. Qed.
Lemma digit_char_neq_minus d : 0 <= d < 10 -> digit_char d <> "-"%char.
Proof. intros H E. pose proof (digit_char_code d H) as C. rewrite E in C. change (N_of_ascii "-") with 45%N in C. lia. Qed.
Lemma digit_val_range c : is_digit c = true -> 0 <= digit_val c < 10.
Proof. unfold is_digit, digit_val. lia. Qed.

Lemma sapp_assoc (a b c : string) : ((a ++ b) ++ c = a ++ (b ++ c))%string.
Proof. induction a; cbn; congruence. Qed.
Lemma sapp_nil_r (a : string) : (a ++ "" = a)%string.
Proof. induction a; cbn; congruence. Qed.
Lemma sapp_length (a b : string) : String.length (a ++ b) = (String.length a + String.length b)%nat.
Proof. induction a; cbn; congruence. Qed.

Lemma scan_print_digits fuel : forall n acc rest, 0 <= n -> n < 2 ^ (Z.of_nat fuel + 1) -> starts_digit rest = false ->
  exists k, 0 <= k /\ scan_digits (print_digits fuel n ++ rest) acc = (acc * 10 ^ k + n, rest) /\ 10 ^ k <= 10 * Z.max n 1.
Proof.
  assert (Stop : forall s acc, starts_digit s = false -> scan_digits s acc = (acc, s)).
  { intros [|c r] acc H; cbn in *; [reflexivity|]. rewrite H. reflexivity. }
  induction fuel as [|fuel IH]; intros n acc rest Hn Hb Hr.
  - change (2 ^ (Z.of_nat 0 + 1)) with 2 in Hb. exists 1. split; [lia|]. cbn [print_digits String.append scan_digits].
    rewrite Z.mod_small by lia. rewrite digit_char_digit, digit_char_val by lia. rewrite Stop by exact Hr.
    split; [f_equal; lia|lia].
  - cbn [print_digits]. destruct (Z.ltb_spec n 10).
    + exists 1. split; [lia|]. cbn [String.append scan_digits]. rewrite digit_char_digit, digit_char_val by lia.
      rewrite Stop by exact Hr. split; [f_equal; lia|lia].
    + rewrite sapp_assoc. cbn [String.append].
      assert (Hd : 0 <= n mod 10 < 10) by (apply Z.mod_pos_bound; lia).
      assert (Hq : n / 10 < 2 ^ (Z.of_nat fuel + 1)).
      { replace (Z.of_nat (S fuel) + 1) with (Z.of_nat fuel + 1 + 1) in Hb by lia. rewrite Z.pow_add_r in Hb by lia.
        change (2 ^ 1) with 2 in Hb. pose proof (Z.div_mod n 10). lia. }
      (* the last digit is read after the digits of n / 10 *)
      assert (K : forall f m a tl, (forall n acc rest, 0 <= n -> n < 2 ^ (Z.of_nat f + 1) -> starts_digit rest = false ->
          exists k, 0 <= k /\ scan_digits (print_digits f n ++ rest) acc = (acc * 10 ^ k + n, rest) /\ 10 ^ k <= 10 * Z.max n 1) ->
          0 <= m -> m < 2 ^ (Z.of_nat f + 1) -> exists k, 0 <= k /\ scan_digits (print_digits f m ++ tl) a = scan_digits tl (a * 10 ^ k + m) /\ 10 ^ k <= 10 * Z.max m 1).
      { clear. intros f m a tl IH Hm Hb. 
        assert (G : forall s a tl, (forall t, starts_digit t = false -> snd (scan_digits (s ++ t) a) = t) ->
                     scan_digits (s ++ tl) a = scan_digits tl (fst (scan_digits s a))).
        { clear. induction s as [|c s IH]; intros a tl H; [reflexivity|]. cbn [String.append scan_digits] in *.
          destruct (is_digit c) eqn:D; [apply IH; exact H|].
          specialize (H ""%string eq_refl). cbn in H. congruence. }
        destruct (IH m a ""%string Hm Hb eq_refl) as (k & Hk & E & B). exists k. split; [exact Hk|].
        split; [|exact B]. rewrite sapp_nil_r in E. rewrite G.
        - rewrite E. reflexivity.
        - intros t Ht. destruct (IH m a t Hm Hb Ht) as (k' & _ & E' & _). rewrite E'. reflexivity. }
      destruct (K fuel (n / 10) acc (String (digit_char (n mod 10)) rest) IH ltac:(lia) Hq) as (k & Hk & E & B).
      rewrite E. cbn [scan_digits]. rewrite digit_char_digit, digit_char_val by exact Hd. rewrite Stop by exact Hr.
      exists (k + 1). split; [lia|]. split.
      * f_equal. rewrite Z.pow_add_r by lia. change (10 ^ 1) with 10. pose proof (Z.div_mod n 10). lia.
      * rewrite Z.pow_add_r by lia. change (10 ^ 1) with 10. lia.
Qed.
Lemma scan_print n rest : 0 <= n -> starts_digit rest = false -> scan_digits (print_nonneg n ++ rest) 0 = (n, rest).
Proof.
  intros Hn Hr. unfold print_nonneg.
  destruct (scan_print_digits (Z.to_nat (Z.log2 n)) n 0 rest Hn) as (k & _ & E & _); [|exact Hr|rewrite E; f_equal].
  rewrite Z2Nat.id by apply Z.log2_nonneg. destruct (Z.eq_dec n 0) as [->|N]; [reflexivity|].
  replace (Z.log2 n + 1) with (Z.succ (Z.log2 n)) by lia. apply Z.log2_spec. lia.
Qed.
Lemma print_nonneg_head n : 0 <= n -> exists c r, print_nonneg n = String c r /\ is_digit c = true.
Proof.
  intros Hn. unfold print_nonneg. generalize (Z.to_nat (Z.log2 n)). intros fuel. revert n Hn.
  induction fuel as [|f IH]; intros n Hn; cbn [print_digits].
  - do 2 eexists; split; [reflexivity|]. apply digit_char_digit. apply Z.mod_pos_bound. lia.
  - destruct (Z.ltb_spec n 10).
    + do 2 eexists; split; [reflexivity|]. apply digit_char_digit. lia.
    + destruct (IH (n / 10)) as (c & r & E & D); [lia|]. rewrite E. cbn. eauto.
Qed.
Lemma print_nonneg_inj a b : 0 <= a -> 0 <= b -> print_nonneg a = print_nonneg b -> a = b.
Proof.
  intros Ha Hb E. pose proof (scan_print a ""%string Ha eq_refl) as A. pose proof (scan_print b ""%string Hb eq_refl) as B.
  rewrite E in A. congruence.
Qed.

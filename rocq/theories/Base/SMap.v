(** std::map<std::string, V> as a list of pairs sorted by key (bytewise comparison).
    No osmium content. *)
From Verif Require Import Base.Prelude.

(** map::find *)
Fixpoint map_find {V} (k : string) (m : list (string * V)) : option V :=
  match m with
  | [] => None
  | (k', v) :: r => if String.eqb k k' then Some v else map_find k r
  end.
(** m[k] = v *)
Fixpoint map_put {V} (k : string) (v : V) (m : list (string * V)) : list (string * V) :=
  match m with
  | [] => [(k, v)]
  | (k', v') :: r =>
      match String.compare k k' with
      | Eq => (k, v) :: r
      | Lt => (k, v) :: (k', v') :: r
      | Gt => (k', v') :: map_put k v r
      end
  end.
(** m.erase(k) *)
Fixpoint map_erase {V} (k : string) (m : list (string * V)) : list (string * V) :=
  match m with
  | [] => []
  | (k', v') :: r => if String.eqb k k' then r else (k', v') :: map_erase k r
  end.
Definition keys {V} (m : list (string * V)) : list string := map fst m.
Definition slt (a b : string) : Prop := String.compare a b = Lt.
Definition map_sorted {V} (m : list (string * V)) : Prop := StronglySorted slt (keys m).

Lemma ascii_compare_lt a b : Ascii.compare a b = Lt <-> (N_of_ascii a < N_of_ascii b)%N.
Proof. unfold Ascii.compare. apply N.compare_lt_iff. Qed.
Lemma ascii_compare_eq a b : Ascii.compare a b = Eq <-> a = b.
Proof.
  split; [apply Ascii.compare_eq_iff|]. intros ->. unfold Ascii.compare. apply N.compare_refl.
Qed.

Lemma slt_trans a b c : slt a b -> slt b c -> slt a c.
Proof.
  unfold slt. revert b c. induction a as [|x a IH]; intros [|y b] [|z c]; cbn; try congruence.
  destruct (Ascii.compare x y) eqn:E1; destruct (Ascii.compare y z) eqn:E2; try congruence; intros H1 H2.
  - apply ascii_compare_eq in E1, E2. subst. replace (Ascii.compare z z) with Eq by (symmetry; apply ascii_compare_eq; auto).
    eauto.
  - apply ascii_compare_eq in E1. subst. rewrite E2. reflexivity.
  - apply ascii_compare_eq in E2. subst. rewrite E1. reflexivity.
  - apply ascii_compare_lt in E1, E2. replace (Ascii.compare x z) with Lt; [reflexivity|].
    symmetry. apply ascii_compare_lt. eapply N.lt_trans; eassumption.
Qed.
Lemma compare_refl s : String.compare s s = Eq.
Proof. induction s as [|a s IH]; cbn; [reflexivity|]. replace (Ascii.compare a a) with Eq; [exact IH|]. symmetry. apply ascii_compare_eq. reflexivity. Qed.
Lemma slt_irrefl a : ~ slt a a.
Proof. unfold slt. rewrite compare_refl. congruence. Qed.
Lemma compare_gt a b : String.compare a b = Gt <-> slt b a.
Proof. unfold slt. rewrite String.compare_antisym. destruct (String.compare b a); cbn; split; congruence. Qed.

Lemma map_find_in {V} k (v : V) m : map_find k m = Some v -> In (k, v) m.
Proof.
  induction m as [|[k' v'] m IH]; cbn; [congruence|].
  destruct (String.eqb_spec k k'); [intros [= <-]; left; congruence|auto].
Qed.
Lemma map_find_none {V} k (m : list (string * V)) : map_find k m = None <-> ~ In k (keys m).
Proof.
  induction m as [|[k' v'] m IH]; cbn; [tauto|].
  destruct (String.eqb_spec k k'); [split; [congruence|intros H; exfalso; apply H; auto]|].
  rewrite IH. split; [intros H [E|E]; [congruence|tauto]|tauto].
Qed.
Lemma map_find_some_in {V} k (v : V) m : NoDup (keys m) -> In (k, v) m -> map_find k m = Some v.
Proof.
  induction m as [|[k' v'] m IH]; cbn; [tauto|]. intros ND [E|E].
  - injection E as -> ->. rewrite String.eqb_refl. reflexivity.
  - apply NoDup_cons_iff in ND as [Hn ND]. destruct (String.eqb_spec k k'); [|auto].
    subst. exfalso. apply Hn. apply (in_map fst) in E. exact E.
Qed.
Lemma map_find_put_eq {V} k (v : V) m : map_find k (map_put k v m) = Some v.
Proof.
  induction m as [|[k' v'] m IH]; cbn; [rewrite String.eqb_refl; reflexivity|].
  destruct (String.compare k k') eqn:E; cbn; rewrite ?String.eqb_refl; try reflexivity.
  destruct (String.eqb_spec k k'); [|exact IH]. subst. rewrite compare_refl in E. congruence.
Qed.
Lemma map_find_put_neq {V} k k2 (v : V) m : k2 <> k -> map_find k2 (map_put k v m) = map_find k2 m.
Proof.
  intros N. induction m as [|[k' v'] m IH]; cbn.
  - destruct (String.eqb_spec k2 k); congruence.
  - destruct (String.compare k k') eqn:E; cbn.
    + apply String.compare_eq_iff in E. subst. destruct (String.eqb_spec k2 k'); congruence.
    + destruct (String.eqb_spec k2 k); congruence.
    + rewrite IH. reflexivity.
Qed.
Lemma map_put_keys_in {V} k (v : V) m x : In x (keys (map_put k v m)) <-> x = k \/ In x (keys m).
Proof.
  induction m as [|[k' v'] m IH]; cbn; [intuition congruence|].
  destruct (String.compare k k') eqn:E; cbn.
  - apply String.compare_eq_iff in E. subst. intuition.
  - intuition.
  - unfold keys in IH. rewrite IH. intuition.
Qed.
Lemma map_put_sorted {V} k (v : V) m : map_sorted m -> map_sorted (map_put k v m).
Proof.
  unfold map_sorted. induction m as [|[k' v'] m IH]; cbn; intros H.
  - constructor; [constructor|constructor].
  - apply StronglySorted_inv in H as [H1 H2].
    destruct (String.compare k k') eqn:E; cbn.
    + apply String.compare_eq_iff in E. subst. constructor; assumption.
    + constructor; [constructor; assumption|]. constructor; [exact E|].
      eapply Forall_impl; [|exact H2]. cbn. intros a Ha. eapply slt_trans; [exact E|exact Ha].
    + constructor; [apply IH; exact H1|]. apply Forall_forall. intros x Hx.
      apply (map_put_keys_in k v m x) in Hx as [->|Hx]; [apply compare_gt; exact E|].
      rewrite Forall_forall in H2. auto.
Qed.
Lemma map_sorted_nodup {V} (m : list (string * V)) : map_sorted m -> NoDup (keys m).
Proof.
  unfold map_sorted. induction 1 as [|k l H IH F]; constructor; [|exact IH].
  intros Hin. rewrite Forall_forall in F. exact (slt_irrefl k (F k Hin)).
Qed.
Lemma map_put_new {V} k (v : V) m : ~ In k (keys m) -> Permutation (map_put k v m) ((k, v) :: m).
Proof.
  induction m as [|[k' v'] m IH]; cbn; intros H; [reflexivity|].
  destruct (String.compare k k') eqn:E.
  - apply String.compare_eq_iff in E. subst. exfalso. apply H. auto.
  - reflexivity.
  - rewrite IH; [|tauto]. apply perm_swap.
Qed.
Lemma map_put_old_keys {V} k (v : V) m : map_sorted m -> In k (keys m) -> keys (map_put k v m) = keys m.
Proof.
  unfold map_sorted. induction m as [|[k' v'] m IH]; cbn; [tauto|]. intros S H.
  apply StronglySorted_inv in S as [S F].
  destruct (String.compare k k') eqn:E; cbn.
  - apply String.compare_eq_iff in E. congruence.
  - exfalso. destruct H as [->|H]; [exact (slt_irrefl _ E)|].
    rewrite Forall_forall in F. apply (slt_irrefl k). eapply slt_trans; [exact E|auto].
  - f_equal. apply IH; [exact S|]. destruct H as [->|H]; [|exact H].
    apply compare_gt in E. exfalso. exact (slt_irrefl _ E).
Qed.
Lemma map_find_erase_eq {V} k (m : list (string * V)) : NoDup (keys m) -> map_find k (map_erase k m) = None.
Proof.
  induction m as [|[k' v'] m IH]; cbn; [reflexivity|]. intros ND. apply NoDup_cons_iff in ND as [Hn ND].
  destruct (String.eqb_spec k k').
  - subst. apply map_find_none. exact Hn.
  - cbn. destruct (String.eqb_spec k k'); [congruence|auto].
Qed.
Lemma map_find_erase_neq {V} k k2 (m : list (string * V)) : k2 <> k -> map_find k2 (map_erase k m) = map_find k2 m.
Proof.
  intros N. induction m as [|[k' v'] m IH]; cbn; [reflexivity|].
  destruct (String.eqb_spec k k'); cbn.
  - subst. destruct (String.eqb_spec k2 k'); congruence.
  - rewrite IH. reflexivity.
Qed.
Lemma map_erase_keys_in {V} k (m : list (string * V)) x : In x (keys (map_erase k m)) -> In x (keys m).
Proof.
  induction m as [|[k' v'] m IH]; cbn; [tauto|]. destruct (String.eqb k k'); cbn; tauto.
Qed.
Lemma map_erase_sorted {V} k (m : list (string * V)) : map_sorted m -> map_sorted (map_erase k m).
Proof.
  unfold map_sorted. induction m as [|[k' v'] m IH]; cbn; [auto|]. intros S.
  apply StronglySorted_inv in S as [S F]. destruct (String.eqb k k'); cbn; [exact S|].
  constructor; [auto|]. apply Forall_forall. intros x Hx. rewrite Forall_forall in F. apply F.
  eapply map_erase_keys_in; exact Hx.
Qed.

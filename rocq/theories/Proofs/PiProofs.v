(** Twenty-five digits of pi. *)
From Coq Require Import Reals Lra Ratan.
From Verif Require Import Base.Prelude Model.Haversine.
Local Open Scope R_scope.

Lemma pi_bounds : 180 * r_deg_to_rad <= PI <= 180 * r_deg_to_rad + / 10 ^ 25.
Proof.
  pose proof (PI_2_3_7_ineq 18) as [L U].
  change (S (2 * 18)) with 37%nat in L. change (2 * 18)%nat with 36%nat in U.
  unfold tg_alt, PI_2_3_7_tg, Ratan_seq, r_deg_to_rad in *.
  cbn -[PI Rdiv INR] in L, U.
  rewrite !INR_IZR_INZ in L, U. cbn -[PI Rdiv] in L, U.
  split; lra.
Qed.

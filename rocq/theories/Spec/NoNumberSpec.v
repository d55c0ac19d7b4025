(** Texts that do not start with a number. *)
From Verif Require Import Base.Prelude Spec.TimeSpec Spec.FloatSpec Spec.DecimalSpec.

(** no number at the start, and none of the words for infinity and "not a number" ISO C has *)
Definition no_number (s : string) : Prop :=
  (forall a b neg n k, s = (a ++ b)%string -> ~ mantissa a neg n k) /\
  (forall sp sg neg c r, all_blank sp -> sign_of sg neg -> s = (sp ++ sg ++ String c r)%string -> ~ In c ["i"; "I"; "n"; "N"]%char).

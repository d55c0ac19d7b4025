(** C01, C02: coordinates as doubles. *)
From Coq Require Import Reals.
From Verif Require Import Base.Prelude Model.Osm Model.Float Spec.FloatSpec Proofs.FloatProofs.

(* ---- C01 ---- *)
Theorem C01_coordinate_roundtrip : forall x, in_i32 x -> double_to_fix (fix_to_double x) = Ok x.
Proof. exact fix_double_roundtrip. Qed.
Print Assumptions C01_coordinate_roundtrip.
Theorem C01_position_roundtrip : forall p, in_i32 (px p) -> in_i32 (py p) ->
  pos_of_lonlat (pos_lon p) (pos_lat p) = Ok p.
Proof. exact pos_roundtrip. Qed.
Print Assumptions C01_position_roundtrip.
Theorem C01_setters_roundtrip : forall p q, in_i32 (px p) -> in_i32 (py p) ->
  (let! r := pos_set_lon q (pos_lon p) in pos_set_lat r (pos_lat p)) = Ok p.
Proof. exact pos_setters_roundtrip. Qed.
Print Assumptions C01_setters_roundtrip.
Example C01_ex : in_i32 (-1799999999) /\ double_to_fix (fix_to_double (-1799999999)) = Ok (-1799999999)
  /\ double_to_fix (fix_to_double 2147483647) = Ok 2147483647.
Proof. unfold in_i32, int32_min, int32_max. split; [lia|]. vm_compute; auto. Qed.

(* ---- C02 ---- *)
Theorem C02_stored_to_nearest : forall c, lonlat_range c ->
  exists n, double_to_fix c = Ok n /\ in_i32 n /\
    (Rabs (IZR n * precision - real_of c) <= precision / 2 + / 10000000000000)%R.
Proof. exact double_to_fix_nearest. Qed.
Print Assumptions C02_stored_to_nearest.
Theorem C02_monotone : forall c d m n, lonlat_range c -> lonlat_range d ->
  (real_of c <= real_of d)%R -> double_to_fix c = Ok m -> double_to_fix d = Ok n -> m <= n.
Proof. exact double_to_fix_monotone. Qed.
Print Assumptions C02_monotone.
(** Outside the range of int32_t the conversion is undefined behaviour. *)
Theorem C02_out_of_range_is_ub : forall c, (forall n, double_to_fix c <> Ok n) <-> double_to_fix c = UB.
Proof. exact double_to_fix_ub. Qed.
Print Assumptions C02_out_of_range_is_ub.
Example C02_ex : lonlat_range (d_of_Z (-180)) /\ double_to_fix (d_of_Z (-180)) = Ok (-1800000000)
  /\ double_to_fix (d_of_Z 300) = UB.
Proof. exact C02_ex_proof. Qed.

(** The real number a double stands for, and the legal range of coordinates. *)
From Coq Require Import Reals.
From Flocq Require Import IEEE754.Binary.
From Verif Require Import Base.Prelude Model.Float.
Local Open Scope R_scope.

Definition real_of (c : double) : R := Binary.B2R 53 1024 c.
Definition finite (c : double) : Prop := Binary.is_finite 53 1024 c = true.
(** finite and of magnitude at most 214 degrees (int32 holds up to 214.7 degrees) *)
Definition lonlat_range (c : double) : Prop := finite c /\ Rabs (real_of c) <= 214.
Definition precision : R := / 10000000.

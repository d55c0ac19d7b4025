(** Specifications for delta coding and the string table. *)
From Verif Require Import Base.Prelude Base.SMap Model.Utils.

(* ---- delta coding ---- *)
Inductive dop := DUpdate (v : Z) | DClear.
(** run a Delta object over operations, collecting the outputs of update *)
Fixpoint run_delta (t : ity) (m : Z) (ops : list dop) : outcome (list Z) :=
  match ops with
  | [] => Ok []
  | DClear :: r => run_delta t (delta_clear m) r
  | DUpdate v :: r =>
      let! (m', d) := delta_update t m v in
      let! ds := run_delta t m' r in Ok (d :: ds)
  end.
Fixpoint values (ops : list dop) : list Z :=
  match ops with [] => [] | DUpdate v :: r => v :: values r | DClear :: r => values r end.
(** a decoder: running sum, restarted at the same places; sums are taken in the type *)
Definition wrap (t : ity) (x : Z) : Z := match t with I64 => x | U32 => to_u32 x end.
Fixpoint decode (t : ity) (acc : Z) (ops : list dop) (ds : list Z) : list Z :=
  match ops, ds with
  | DClear :: r, _ => decode t 0 r ds
  | DUpdate _ :: r, d :: ds => let a := wrap t (acc + d) in a :: decode t a r ds
  | _, _ => []
  end.
(** consecutive values whose difference does not fit *)
Fixpoint no_overflow (m : Z) (ops : list dop) : Prop :=
  match ops with
  | [] => True
  | DClear :: r => no_overflow 0 r
  | DUpdate v :: r => in_i64 (v - m) /\ no_overflow v r
  end.

(* ---- string table ---- *)
(** record a list of strings, collecting the returned ids *)
Fixpoint record_all (l : list string) (t : stringtable) : stringtable * list Z :=
  match l with
  | [] => (t, [])
  | s :: r => let (t1, i) := record_string s t in let (t2, is) := record_all r t1 in (t2, i :: is)
  end.
(** what is known of the order of the multimap: a rearrangement, counts descending *)
Definition by_count_desc (order : list (string * string_info) -> list (string * string_info)) : Prop :=
  forall m, Permutation (order m) m /\
    StronglySorted (fun a b => si_count (snd a) >= si_count (snd b)) (order m).
Definition occurrences (l : list string) (s : string) : nat := count_occ string_dec l s.
Definition distinct_strings (l : list string) : nat := List.length (nodup string_dec l).
(** an order meeting [by_count_desc] *)
Fixpoint insert_by_count (e : string * string_info) (l : list (string * string_info)) :=
  match l with
  | [] => [e]
  | x :: r => if si_count (snd x) <? si_count (snd e) then e :: l else x :: insert_by_count e r
  end.
Definition insertion_by_count (l : list (string * string_info)) := fold_right insert_by_count [] l.

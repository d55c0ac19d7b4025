(** The progress display: handler/progress.hpp.
    The clock (gettimeofday) is a parameter: its n-th reading.  float arithmetic is binary32, rounded
    after every operation (as with SSE registers), long has 64 bits and int 32.  What is written to
    standard output is collected; writing does not fail. *)
From Flocq Require Import IEEE754.BinarySingleNaN IEEE754.Binary IEEE754.Bits.
From Verif Require Import Base.Prelude Base.Decimal Model.Osm Model.Handler.
Local Open Scope string_scope.

Definition float : Set := binary32.
Definition prec32 : FLX.Prec_gt_0 24 := eq_refl.
Definition emax32 : BinarySingleNaN.Prec_lt_emax 24 128 := eq_refl.
(** an integer converted to float *)
Definition f_of_Z (z : Z) : float := Binary.binary_normalize 24 128 prec32 emax32 mode_NE z 0 false.
(** a float converted to int: truncated, undefined if it does not fit *)
Definition f_to_int (x : float) : outcome Z :=
  if Binary.is_finite 24 128 x then
    let z := Binary.Btrunc 24 128 x in
    if ((int32_min <=? z) && (z <=? int32_max))%Z then Ok z else UB
  else UB.

(** struct timeval *)
Record timeval := mkTV { tv_sec : Z; tv_usec : Z }.
(** progress.hpp 75-76: the difference of two times in microseconds (long), and the count per second.
    The same expressions are in lines 79-80, 83-84, 169-170, 175-176, 181-182. *)
Definition usec_between (now first : timeval) : outcome Z :=
  let d := ((tv_sec now - tv_sec first) * 1000000 + (tv_usec now - tv_usec first))%Z in
  if ((int64_min <=? d) && (d <=? int64_max))%Z then Ok d else UB.
Definition per_second (count : Z) (now first : timeval) : outcome Z :=
  let! d := usec_between now first in
  f_to_int (b32_mult mode_NE (b32_div mode_NE (f_of_Z count) (f_of_Z d)) (f_of_Z 1000000)).

(** progress.hpp 49-59: the members, the number of clock readings so far, and the output *)
Record pstate := mkP { p_nodes : Z; p_ways : Z; p_rels : Z; p_step : Z; p_tty : bool;
  p_first_node : timeval; p_first_way : timeval; p_first_rel : timeval; p_reads : nat; p_out : string }.
(** progress.hpp 102-112: the constructor; [tty] is isatty(1) *)
Definition progress_new (step : Z) (tty : bool) : pstate :=
  mkP 0 0 0 step tty (mkTV 0 0) (mkTV 0 0) (mkTV 0 0) 0 "".

Definition escape : ascii := "027"%char.
Definition p_print (t : string) (s : pstate) : pstate :=
  mkP (p_nodes s) (p_ways s) (p_rels s) (p_step s) (p_tty s) (p_first_node s) (p_first_way s) (p_first_rel s) (p_reads s) (p_out s ++ t).
(** progress.hpp 114-120: hide_cursor, show_cursor *)
Definition hide_cursor : string := String escape "[?25l".
Definition show_cursor : string := String escape "[?25h".

Section Progress.
  (** gettimeofday *)
  Variable clock : nat -> timeval.
  Definition p_now (s : pstate) : timeval * pstate :=
    (clock (p_reads s), mkP (p_nodes s) (p_ways s) (p_rels s) (p_step s) (p_tty s) (p_first_node s) (p_first_way s) (p_first_rel s)
       (Datatypes.S (p_reads s)) (p_out s)).

  (** progress.hpp 61-93: update_display.  Text reaches the output even if the computation of the speed goes wrong. *)
  Definition counts_out (s : pstate) : string :=
    "[" ++ print_Z (p_nodes s) ++ "]" ++
    (if (p_ways s >? 0) || (p_rels s >? 0) then
       " [" ++ print_Z (p_ways s) ++ "]" ++ (if p_rels s >? 0 then " [" ++ print_Z (p_rels s) ++ "]" else "")
     else "").
  Definition speed_out (now : timeval) (s : pstate) : outcome string :=
    if p_rels s >? 0 then let! k := per_second (p_rels s) now (p_first_rel s) in Ok (" (" ++ print_Z k ++ " Relations per second)   ")
    else if p_ways s >? 0 then let! k := per_second (p_ways s) now (p_first_way s) in Ok (" (" ++ print_Z k ++ " Ways per second)   ")
    else if p_nodes s >? 0 then let! k := per_second (p_nodes s) now (p_first_node s) in Ok (" (" ++ print_Z k ++ " Nodes per second)   ")
    else Ok "".
  Definition update_display (per_sec : bool) (s : pstate) : pstate * option halt :=
    let s1 := p_print (counts_out s) s in
    if per_sec then
      let (now, s2) := p_now s1 in
      match speed_out now s2 with
      | Ok t => (p_print (t ++ String "013" "") s2, None)
      | _ => (s2, Some HUB)
      end
    else (p_print ("                                   " ++ String "013" "") s1, None).

  (** progress.hpp 122-127: init *)
  Definition p_init (s : pstate) : pstate * option halt :=
    if p_tty s then update_display true (p_print hide_cursor s) else (s, None).
  (** progress.hpp 129-154: node, way, relation.  The modulo is that of uint64_t: the step is converted. *)
  Definition is_step (count step : Z) : outcome bool :=
    if (to_u64 step =? 0)%Z then UB else Ok (count mod to_u64 step =? 0)%Z.
  Definition p_count (t : otype) (s : pstate) : Z :=
    match t with NODE => p_nodes s | WAY => p_ways s | RELATION => p_rels s | _ => 0 end.
  Definition p_first (t : otype) (s : pstate) : timeval :=
    match t with NODE => p_first_node s | WAY => p_first_way s | RELATION => p_first_rel s | _ => mkTV 0 0 end.
  Definition p_set_first (t : otype) (v : timeval) (s : pstate) : pstate :=
    mkP (p_nodes s) (p_ways s) (p_rels s) (p_step s) (p_tty s)
      (match t with NODE => v | _ => p_first_node s end) (match t with WAY => v | _ => p_first_way s end)
      (match t with RELATION => v | _ => p_first_rel s end) (p_reads s) (p_out s).
  Definition p_increment (t : otype) (s : pstate) : pstate :=
    mkP (match t with NODE => to_u64 (p_nodes s + 1) | _ => p_nodes s end) (match t with WAY => to_u64 (p_ways s + 1) | _ => p_ways s end)
      (match t with RELATION => to_u64 (p_rels s + 1) | _ => p_rels s end)
      (p_step s) (p_tty s) (p_first_node s) (p_first_way s) (p_first_rel s) (p_reads s) (p_out s).
  Definition p_object (o : object) (s : pstate) : pstate * option halt :=
    let t := obj_type o in
    let s1 := if (tv_sec (p_first t s) =? 0)%Z then let (now, s') := p_now s in p_set_first t now s' else s in
    if p_tty s1 then
      let s2 := p_increment t s1 in
      match is_step (p_count t s2) (p_step s2) with
      | Ok true => update_display true s2
      | Ok false => (s2, None)
      | _ => (s2, Some HUB)
      end
    else (s1, None).

  (** progress.hpp 156-189: final *)
  Definition p_average (name : string) (count : Z) (until first : timeval) (s : pstate) : pstate * option halt :=
    if count >? 0 then
      match per_second count until first with
      | Ok k => (p_print (print_Z k ++ name) s, None)
      | _ => (s, Some HUB)
      end
    else (s, None).
  Definition p_bind (x : pstate * option halt) (f : pstate -> pstate * option halt) : pstate * option halt :=
    match x with (s, None) => f s | (s, Some h) => (s, Some h) end.
  Definition p_final (s : pstate) : pstate * option halt :=
    if p_tty s then
      p_bind (update_display false s) (fun s1 =>
      let (now, s2) := p_now (p_print (String "010" "  Average: ") s1) in
      p_bind (p_average " Nodes " (p_nodes s2) (p_first_way s2) (p_first_node s2) s2) (fun s3 =>
      p_bind (p_average " Ways " (p_ways s3) (p_first_rel s3) (p_first_way s3) s3) (fun s4 =>
      p_bind (p_average " Relations " (p_rels s4) now (p_first_rel s4) s4) (fun s5 =>
      (p_print (show_cursor ++ "per second" ++ String "010" "") s5, None)))))
    else (s, None).

  (** the handler *)
  Definition progress (c : callback) (s : pstate) : pstate * option halt :=
    match c with
    | CInit => p_init s
    | CObj o => p_object o s
    | CFinal => p_final s
    | CBefore _ | CAfter _ | CArea _ => (s, None)
    end.
End Progress.

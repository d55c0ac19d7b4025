(** C69: the progress display. *)
From Verif Require Import Base.Prelude Base.Decimal Model.Osm Model.Handler Model.Convert Model.Progress Spec.OsmSpec Spec.HandlerSpec Spec.ProgressSpec
  Proofs.ProgressProofs.
Local Open Scope Z_scope.

(* ---- C69 ---- *)
(** Every display shows the true numbers, and it is renewed at every multiple of the step; the cursor is
    hidden at first and shown at the end. *)
Theorem C69_display : forall clock step gs s h b, (forall n, 0 < tv_sec (clock n)) -> 0 < step < 2147483648 -> gs <> [] -> (forall g, In g gs -> well_typed g) ->
  Z.of_nat (List.length (flat_map snd gs)) < 18446744073709551616 ->
  input_read (progress clock) (gs, Ok tt) (progress_new step true) = (s, h, b) -> h <> Some HUB ->
  h = None /\ exists frames av, Forall2 (shows clock) ([] :: updates step (flat_map snd gs)) frames /\ averages (flat_map snd gs) av /\
    p_out s = (String "027" "[?25l" ++ joined frames ++ counts_text (flat_map snd gs) ++ "                                   "
        ++ String "013" (String "010" "  Average: ") ++ av ++ String "027" "[?25h" ++ "per second" ++ String "010" "")%string.
Proof. exact progress_shows. Qed.
Print Assumptions C69_display.
Theorem C69_number_of_updates : forall step os, 0 < step ->
  Z.of_nat (List.length (updates step os)) = count_of NODE os / step + count_of WAY os / step + count_of RELATION os / step.
Proof. exact updates_number. Qed.
Print Assumptions C69_number_of_updates.
(** Nothing goes wrong in a file sorted by type if the clock advances quickly enough (by a microsecond for every 2000 objects). *)
Theorem C69_defined : forall clock step gs n, (forall n, 0 < tv_sec (clock n)) -> 0 < step < 2147483648 -> gs <> [] -> (forall g, In g gs -> well_typed g) ->
  by_type (flat_map snd gs) -> (1 + 2 * List.length (flat_map snd gs) <= n)%nat -> running_clock clock step n ->
  exists s, input_read (progress clock) (gs, Ok tt) (progress_new step true) = (s, None, true).
Proof. exact progress_defined. Qed.
Print Assumptions C69_defined.
(** The speed is right up to one and a millionth of it. *)
Theorem C69_speed : forall c a b k, 0 < c < 18446744073709551616 -> per_second c a b = Ok k -> 0 < micros a - micros b ->
  speed_of k c (micros a - micros b).
Proof. exact per_second_right. Qed.
Print Assumptions C69_speed.
(** If the output is not a terminal, nothing is printed, whatever is read and whatever the step is. *)
Theorem C69_no_terminal : forall clock step r, let x := input_read (progress clock) r (progress_new step false) in p_out (fst (fst x)) = ""%string /\
  snd (fst x) = match snd r with Ok _ => None | Throw EStopReading => None | Throw e => Some (HExn e) | _ => Some HUB end.
Proof. exact no_terminal. Qed.
Print Assumptions C69_no_terminal.

(* ---- examples and findings ---- *)
Definition pn (id : Z) : object := ONode (mkNode (mkAttrs id 1 7 1000000000 0 5 "joe" true []) (mkPos 1 2)).
Definition pw (id : Z) : object := OWay (mkWay (mkAttrs id 1 7 1000000000 0 5 "joe" true []) []).
(** a reading every second *)
Definition seconds (n : nat) : timeval := mkTV (1500000000 + Z.of_nat n) 17.
Definition printed (clock : nat -> timeval) (step : Z) (gs : list group) : string * option halt :=
  let '(s, h, _) := input_read (progress clock) (gs, Ok tt) (progress_new step true) in (p_out s, h).
Definition three_two : list group := [(NODE, [pn 1; pn 2; pn 3]); (WAY, [pw 1; pw 2])].
Example C69_example : (forall n, 0 < tv_sec (seconds n)) /\ (forall g, In g three_two -> well_typed g) /\ by_type (flat_map snd three_two) /\
  running_clock seconds 2 1000 /\
  printed seconds 2 three_two =
  ((String "027" "[?25l" ++ "[0]" ++ String "013" ("[2] (2 Nodes per second)   " ++ String "013" ("[3] [2] (2 Ways per second)   " ++ String "013"
    ("[3] [2]                                   " ++ String "013" (String "010" ("  Average: 1 Nodes 0 Ways " ++ String "027" ("[?25hper second" ++ String "010" "")))))))%string, None).
Proof.
  split; [|split; [|split; [|split]]].
  - intros n. unfold seconds. cbn [tv_sec]. lia.
  - intros g [<-|[<-|[]]]; (split; [unfold object_type; cbn [fst]; auto|]; intros o H; cbn [snd] in H; repeat destruct H as [<-|H]; try reflexivity; destruct H).
  - unfold by_type. cbn [three_two flat_map snd app]. repeat constructor.
  - split; intros n L; unfold micros, seconds; cbn [tv_sec tv_usec]; lia.
  - vm_compute. reflexivity.
Qed.
(** Finding: with a step of zero the first object divides by zero. *)
Theorem C69_zero_step_refuted : exists gs, gs <> [] /\ (forall g, In g gs -> well_typed g) /\
  forall clock, snd (printed clock 0 gs) = Some HUB.
Proof.
  exists [(NODE, [pn 1])]. split; [discriminate|]. split.
  - intros g [<-|[]]. split; [left; reflexivity|]. intros o [<-|[]]. reflexivity.
  - intros clock. destruct (clock 1%nat) as [x y] eqn:E. destruct x; unfold printed; vm_compute; rewrite ?E; reflexivity.
Qed.
Print Assumptions C69_zero_step_refuted.
(** Finding: two readings of the clock in the same microsecond give an infinite speed, whose conversion to int is undefined. *)
Theorem C69_same_microsecond_refuted : exists gs clock, gs <> [] /\ (forall g, In g gs -> well_typed g) /\ by_type (flat_map snd gs) /\
  (forall n, 1000000000 <= tv_sec (clock n) /\ 0 <= tv_usec (clock n) < 1000000) /\ snd (printed clock 1 gs) = Some HUB.
Proof.
  exists [(NODE, [pn 1])], (fun _ => mkTV 1500000000 17). split; [discriminate|]. split; [|split; [|split]].
  - intros g [<-|[]]. split; [left; reflexivity|]. intros o [<-|[]]. reflexivity.
  - unfold by_type. cbn [flat_map snd app]. repeat constructor.
  - intros n. cbn [tv_sec tv_usec]. lia.
  - vm_compute. reflexivity.
Qed.
Print Assumptions C69_same_microsecond_refuted.
(** Finding: the average of the last type of objects in a file (if these are not relations) is wrong, since the time of the
    first object of the next type is used, which is zero: four nodes within 40 microseconds give an average of zero. *)
Theorem C69_average_refuted : exists gs clock out, gs <> [] /\ (forall g, In g gs -> well_typed g) /\ running_clock clock 1000 20 /\
  count_of NODE (flat_map snd gs) = 4 /\ micros (clock 4%nat) - micros (clock 0%nat) = 40 /\
  printed clock 1000 gs = ((out ++ "  Average: 0 Nodes " ++ String "027" ("[?25hper second" ++ String "010" ""))%string, None).
Proof.
  exists [(NODE, [pn 1; pn 2; pn 3; pn 4])], (fun n => mkTV 1500000000 (10 * Z.of_nat n)),
    (String "027" ("[?25l[0]" ++ String "013" ("[4]                                   " ++ String "013" (String "010" ""))))%string.
  split; [discriminate|]. split; [|split; [|split; [|split]]].
  - intros g [<-|[]]. split; [left; reflexivity|]. intros o H; cbn [snd] in H; repeat destruct H as [<-|H]; try reflexivity; destruct H.
  - split; intros n L; unfold micros; cbn [tv_sec tv_usec]; lia.
  - reflexivity.
  - reflexivity.
  - vm_compute. reflexivity.
Qed.
Print Assumptions C69_average_refuted.
(** Finding: if reading the file fails, the cursor stays hidden. *)
Theorem C69_cursor_refuted : exists gs clock s h b, running_clock clock 1000 20 /\
  input_read (progress clock) (gs, Throw ERuntime) (progress_new 1000 true) = (s, h, b) /\ p_out s = (String "027" ("[?25l[0]" ++ String "013" ""))%string.
Proof.
  exists [(NODE, [pn 1])], seconds. eexists _, _, _. split; [|split].
  - split; intros n L; unfold micros, seconds; cbn [tv_sec tv_usec]; lia.
  - vm_compute. reflexivity.
  - vm_compute. reflexivity.
Qed.
Print Assumptions C69_cursor_refuted.
(** Finding: if a way comes early in a file which is not sorted by type, the average of the nodes does not fit into an int. *)
Theorem C69_unsorted_refuted : exists gs clock, gs <> [] /\ (forall g, In g gs -> well_typed g) /\
  running_clock clock 1000 (1 + 2 * List.length (flat_map snd gs)) /\ snd (printed clock 1000 gs) = Some HUB.
Proof.
  exists [(NODE, [pn 1]); (WAY, [pw 1]); (NODE, repeat (pn 2) 3000)], (fun n => mkTV 1500000000 (Z.of_nat n)).
  split; [discriminate|]. split; [|split].
  - intros g [<-|[<-|[<-|[]]]]; (split; [unfold object_type; cbn [fst]; auto|]); cbn [fst snd].
    + intros o [<-|[]]. reflexivity.
    + intros o [<-|[]]. reflexivity.
    + intros o H. apply repeat_spec in H. subst o. reflexivity.
  - cbn [flat_map snd app]. rewrite app_nil_r. cbn [List.length]. rewrite repeat_length. split; intros n L; unfold micros; cbn [tv_sec tv_usec]; lia.
  - vm_compute. reflexivity.
Qed.
Print Assumptions C69_unsorted_refuted.

(** What the progress display is to show. *)
From Verif Require Import Base.Prelude Base.Decimal Model.Osm Model.Handler Model.Progress Spec.OsmSpec Spec.HandlerSpec.
Local Open Scope string_scope.

(** how many objects of a type there are *)
Definition count_of (t : otype) (os : list object) : Z := Z.of_nat (List.length (filter (fun o => otype_eqb (obj_type o) t) os)).
(** the part of the file after which the display is renewed: its last object makes the number of objects
    of this type a multiple of the step *)
Definition due (step : Z) (os : list object) : bool :=
  match rev os with
  | o :: _ => (count_of (obj_type o) os mod step =? 0)%Z
  | [] => false
  end.
Definition beginnings (os : list object) : list (list object) := map (fun k => firstn k os) (seq 1 (List.length os)).
Definition updates (step : Z) (os : list object) : list (list object) := filter (due step) (beginnings os).

(** the numbers of nodes, ways and relations; those of the last types are left out as long as they are zero *)
Definition counts_text (os : list object) : string :=
  let n := count_of NODE os in let w := count_of WAY os in let r := count_of RELATION os in
  "[" ++ print_Z n ++ "]" ++
  (if ((w =? 0) && (r =? 0))%Z then "" else " [" ++ print_Z w ++ "]") ++
  (if (r =? 0)%Z then "" else " [" ++ print_Z r ++ "]").

Definition joined (l : list string) : string := fold_right String.append "" l.

(** a time in microseconds *)
Definition micros (t : timeval) : Z := tv_sec t * 1000000 + tv_usec t.
(** k per second is the speed for that many objects in d microseconds, up to one and a millionth *)
Definition speed_of (k count d : Z) : Prop := (Z.abs (k * d - 1000000 * count) <= d + count)%Z.
(** the type whose speed is shown: the last one met in the order of the types *)
Definition shown_type (os : list object) : otype :=
  if (0 <? count_of RELATION os)%Z then RELATION else if (0 <? count_of WAY os)%Z then WAY else NODE.
Definition type_text (t : otype) : string :=
  match t with NODE => "Nodes" | WAY => "Ways" | RELATION => "Relations" | _ => "" end.
(** the display with the speed, for two readings of the clock *)
Inductive shows (clock : nat -> timeval) (os : list object) : string -> Prop :=
| shows_nothing : os = [] -> shows clock os (counts_text os ++ String "013" "")
| shows_speed k i j : os <> [] -> (i < j)%nat ->
    ((0 < micros (clock j) - micros (clock i))%Z -> speed_of k (count_of (shown_type os) os) (micros (clock j) - micros (clock i))) ->
    shows clock os (counts_text os ++ " (" ++ print_Z k ++ " " ++ type_text (shown_type os) ++ " per second)   " ++ String "013" "").
(** the averages at the end *)
Inductive averages (os : list object) : string -> Prop :=
| averages_are a b c :
    (if (count_of NODE os =? 0)%Z then a = "" else exists k, a = print_Z k ++ " Nodes ") ->
    (if (count_of WAY os =? 0)%Z then b = "" else exists k, b = print_Z k ++ " Ways ") ->
    (if (count_of RELATION os =? 0)%Z then c = "" else exists k, c = print_Z k ++ " Relations ") ->
    averages os (a ++ b ++ c).

(** a clock whose first readings are between the years 2001 and 10000 and which, between two readings
    (that is, usually, during step objects), advances by at least one microsecond for every 2000 objects *)
Definition running_clock (clock : nat -> timeval) (step : Z) (readings : nat) : Prop :=
  (forall n, (n <= readings)%nat -> 1000000000 <= tv_sec (clock n) < 253402300800 /\ 0 <= tv_usec (clock n) < 1000000)%Z /\
  forall n, (n < readings)%nat -> (step <= 2000 * (micros (clock (Datatypes.S n)) - micros (clock n)))%Z.
(** nodes come before ways and ways before relations *)
Definition rank (t : otype) : nat := match t with NODE => 0 | WAY => 1 | RELATION => 2 | _ => 3 end.
Definition by_type (os : list object) : Prop := StronglySorted (fun a b => (rank (obj_type a) <= rank (obj_type b))%nat) os.

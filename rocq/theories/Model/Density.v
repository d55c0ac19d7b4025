(** The example program that draws a map of the density of nodes: examples/nodedensity.cpp.
    int has 32 bits, undefined operations on it are UB; memory suffices; the gd library draws what it
    is told, and the colours it allocates are numbered from 0 on.  Messages are left out. *)
From Verif Require Import Base.Prelude Model.Osm Model.Float Model.Haversine Model.Handler.

(** the result of an operation on int *)
Definition int (z : Z) : outcome Z := if in_i32b z then Ok z else UB.
(** nodedensity.cpp 21-26: the members fixed by the constructor *)
Record dcfg := mkDC { dc_xsize : Z; dc_ysize : Z; dc_factor : double; dc_min : Z; dc_max : Z; dc_diff : Z }.
(** nodedensity.cpp 20, 27: the counters (the index is below m_xsize * m_ysize), m_max_count; and the image given to
    gdImagePng: the colours of the pixels, row by row *)
Record density := mkD { dn_count : Z -> Z; dn_max_count : Z; dn_image : option (list Z) }.

(** nodedensity.cpp 31-41: the constructor.  calloc gets the product of the sizes *)
Definition density_new (size mn mx : Z) : outcome (dcfg * density) :=
  let! xs := int (size * 2) in
  let factor := d_of_Z (Z.quot size 180) in
  let! _ := int (xs * size) in
  let! diff := int (mx - mn) in
  Ok (mkDC xs size factor mn mx diff, mkD (fun _ => 0) 0 None).

Section Density.
  Variable c : dcfg.
  (** nodedensity.cpp 50-53: into the image *)
  Definition dn_clamp (size x : Z) : Z :=
    let x1 := if x <? 0 then 0 else x in
    if x1 >=? size then size - 1 else x1.
  (** nodedensity.cpp 48-53: the column and the row *)
  Definition dn_place (p : position) : outcome (Z * Z) :=
    let! x := d_to_i32 (d_mul (d_add (d_of_Z 180) (pos_lon p)) (dc_factor c)) in
    let! y := d_to_i32 (d_mul (d_sub (d_of_Z 90) (pos_lat p)) (dc_factor c)) in
    Ok (dn_clamp (dc_xsize c) x, dn_clamp (dc_ysize c) y).
  (** nodedensity.cpp 54-60; the counter is a uint16_t *)
  Definition dn_node (p : position) (s : density) : outcome density :=
    let! xy := dn_place p in
    let! row := int (snd xy * dc_xsize c) in
    let! n := int (row + fst xy) in
    if (0 <=? n) && (n <? dc_xsize c * dc_ysize c) then
      let v := dn_count s n in
      let v' := if v <? 65535 - 1 then v + 1 else v in
      Ok (mkD (fun k => if k =? n then v' else dn_count s k)
              (if v' >? dn_max_count s then v' else dn_max_count s) (dn_image s))
    else UB.
  (** nodedensity.cpp 75-77: the colour for a count, as uint8_t *)
  Definition dn_shade (v : Z) : outcome Z :=
    let v1 := if v <? dc_min c then dc_min c else v in
    let v2 := if v1 >? dc_max c then dc_max c else v1 in
    let! d := int (v2 - dc_min c) in
    let! m := int (d * 255) in
    if dc_diff c =? 0 then UB else
    let! q := int (Z.quot m (dc_diff c)) in
    Ok (q mod 256).
  Fixpoint dn_pixels (s : density) (ks : list Z) : outcome (list Z) :=
    match ks with
    | [] => Ok []
    | k :: r => let! v := dn_shade (dn_count s k) in let! l := dn_pixels s r in Ok (v :: l)
    end.
  (** the loops of nodedensity.cpp 71-79 take the counters in order *)
  Fixpoint dn_indices (n : nat) (k : Z) : list Z :=
    match n with O => [] | Datatypes.S m => k :: dn_indices m (k + 1) end.
  (** nodedensity.cpp 47-84: the handler *)
  Definition density_handler (cb : callback) (s : density) : density * option halt :=
    match cb with
    | CObj (ONode n) =>
        match dn_node (n_pos n) s with Ok s' => (s', None) | Throw e => (s, Some (HExn e)) | _ => (s, Some HUB) end
    | CAfter NODE =>
        match dn_pixels s (dn_indices (Z.to_nat (dc_xsize c * dc_ysize c)) 0) with
        | Ok l => (mkD (dn_count s) (dn_max_count s) (Some l), Some (HExn EStopReading))
        | Throw e => (s, Some (HExn e))
        | _ => (s, Some HUB)
        end
    | _ => (s, None)
    end.
End Density.

(** C71: the map of node densities.  Statements only, the proofs are in Proofs. *)
From Verif Require Import Base.Prelude Model.Osm Model.Float Model.Handler Model.Convert Model.Density Spec.OsmSpec Spec.HandlerSpec Spec.DensitySpec
  Proofs.DensityFloat Proofs.DensityProofs.
Local Open Scope Z_scope.

(* ---- C71 ---- *)
(** There is one way to assign pixels to positions, right up to the borders between pixels, such that for every
    file the shade of each pixel is that of the number of nodes assigned to it (at most 65534), and the maximum
    reported is the largest of these numbers.  The nodes are those of the first run of nodes in the file. *)
Theorem C71_image : forall size, 1 <= size <= 32767 -> exists place, (forall p, stored p -> placed size p (place p)) /\
  forall mn mx gs before ns rest, mn < mx <= mn + 8421504 -> (forall g, In g gs -> well_typed g) ->
    join gs = before ++ (NODE, ns) :: rest -> (forall g, In g before -> fst g <> NODE) -> Forall stored (node_positions ns) ->
    exists c s0 s image, density_new size mn mx = Ok (c, s0) /\ input_read (density_handler c) (gs, Ok tt) s0 = (s, None, true) /\
      dn_image s = Some image /\ shows_density size mn mx place (node_positions ns) image /\
      fullest place (node_positions ns) (dn_max_count s).
Proof. exact density_image. Qed.
Print Assumptions C71_image.
(** Without nodes no image is drawn. *)
Theorem C71_no_nodes : forall c s0 gs, (forall g, In g gs -> well_typed g) -> (forall g, In g (join gs) -> fst g <> NODE) ->
  input_read (density_handler c) (gs, Ok tt) s0 = (s0, None, true).
Proof. exact density_empty. Qed.
Print Assumptions C71_no_nodes.

(* ---- examples ---- *)
Definition dnode (x y : Z) : object := ONode (mkNode (mkAttrs 1 1 7 1000000000 0 5 "joe" true []) (mkPos x y)).
Definition drawn (size mn mx : Z) (gs : list (otype * list object)) : outcome (option (list Z) * option halt) :=
  let! cs := density_new size mn mx in
  let '(s, h, _) := input_read (density_handler (fst cs)) (gs, Ok tt) (snd cs) in Ok (dn_image s, h).
Definition pixel (size x y : Z) (r : outcome (option (list Z) * option halt)) : option Z :=
  match r with Ok (Some l, None) => nth_error l (Z.to_nat (y * (2 * size) + x)) | _ => None end.
Definition some_nodes : list (otype * list object) :=
  [(NODE, [dnode 85000000 495000000; dnode 85000001 495000001; dnode (-1800000000) 900000000]); (WAY, []); (NODE, [dnode 0 0])].
Example C71_ex : pixel 180 188 40 (drawn 180 0 4 some_nodes) = Some 127 /\ pixel 180 0 0 (drawn 180 0 4 some_nodes) = Some 63 /\
  pixel 180 180 90 (drawn 180 0 4 some_nodes) = Some 0.
Proof. split; [vm_compute; reflexivity|]. split; vm_compute; reflexivity. Qed.
Example C71_hyps_ex : (forall g, In g some_nodes -> well_typed g) /\ Forall stored (node_positions (flat_map snd some_nodes)) /\
  exists ns rest, join some_nodes = [] ++ (NODE, ns) :: rest /\ List.length ns = 3%nat.
Proof.
  split; [intros g [<-|[<-|[<-|[]]]]; (split; [cbn; unfold object_type; tauto|]); intros o H; cbn in H; intuition (subst; reflexivity)|].
  split; [unfold some_nodes; cbn [flat_map snd app node_positions dnode n_pos]; repeat (apply Forall_cons; [repeat split; vm_compute; discriminate|]); apply Forall_nil|]. eexists _, _. split; reflexivity.
Qed.

(* ---- findings ---- *)
(** On the border of two pixels a node can get into the western one: 256/5 degrees East of the edge at 5 pixels per degree. *)
Theorem C71_border_refuted : exists p c s0 y, density_new 1024 0 10 = Ok (c, s0) /\ (1800000000 + px p) * (1024 / 180) = 256 * 10000000 /\
  dn_place c p = Ok (255, y).
Proof. exists (mkPos (-1288000000) 0). eexists _, _, _. split; [reflexivity|]. split; [reflexivity|]. vm_compute. reflexivity. Qed.
Print Assumptions C71_border_refuted.
(** Below 180 rows all nodes are in one pixel. *)
Theorem C71_small_refuted : exists size, 1 <= size /\ exists place, (forall p, stored p -> placed size p (place p)) /\
  forall p, stored p -> place p = (0, 0).
Proof.
  exists 179. split; [lia|]. destruct (density_image 179 ltac:(lia)) as (place & P & _). exists place. split; [exact P|]. intros p S.
  destruct (P p S) as [(q & Hq & Eq) (r & Hr & Er)]. change (179 / 180) with 0 in *. rewrite Z.mul_0_r in *. change (0 / 10000000) with 0 in *.
  destruct (place p) as [x y]. cbn [fst snd] in *. f_equal; lia.
Qed.
Print Assumptions C71_small_refuted.
(** The degrees do not fill the image: with 1024 rows the map ends at column 1800 of 2048. *)
Theorem C71_unused_refuted : exists size, 180 <= size /\ forall place, (forall p, stored p -> placed size p (place p)) ->
  forall p, stored p -> px p <= 1800000000 -> -900000000 <= py p -> fst (place p) <= 1800 /\ snd (place p) <= 900.
Proof.
  exists 1024. split; [lia|]. intros place P p S Hx Hy. destruct (P p S) as [(q & Hq & ->) (r & Hr & ->)]. change (1024 / 180) with 5 in *.
  assert ((1800000000 + px p) * 5 / 10000000 <= 1800) by (apply Z.div_le_upper_bound; lia).
  assert ((900000000 - py p) * 5 / 10000000 <= 900) by (apply Z.div_le_upper_bound; lia). lia.
Qed.
Print Assumptions C71_unused_refuted.
(** Nodes without a position are drawn too. *)
Theorem C71_undefined_refuted : exists p c s0 y, pos_defined p = false /\ density_new 1024 0 10 = Ok (c, s0) /\ dn_place c p = Ok (1973, y).
Proof. exists undef_pos. eexists _, _, _. split; [reflexivity|]. split; [reflexivity|]. vm_compute. reflexivity. Qed.
Print Assumptions C71_undefined_refuted.
(** If the two limits are equal, the program divides by zero; without rows, and with 32768, it does undefined things too. *)
Theorem C71_limits_refuted : exists gs, drawn 180 5 5 gs = Ok (None, Some HUB) /\ drawn 0 0 9 gs = Ok (None, Some HUB) /\ drawn 32768 0 9 gs = UB.
Proof. exists [(NODE, [dnode 0 0])]. split; [vm_compute; reflexivity|]. split; [vm_compute; reflexivity|reflexivity]. Qed.
Print Assumptions C71_limits_refuted.

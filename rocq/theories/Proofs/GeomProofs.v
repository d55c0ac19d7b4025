(** Proofs about Model/Geom.v. *)
From Flocq Require Import IEEE754.Bits.
From Verif Require Import Base.Prelude Base.Decimal Model.Osm Model.Float Model.Geom Spec.GeomSpec.

(* ---- bytes ---- *)
Lemma le_bytes_length n : forall x, List.length (le_bytes n x) = n.
Proof. induction n as [|n IH]; intros x; cbn; auto. Qed.
Lemma pow256_S n : 256 ^ Z.of_nat (S n) = 256 * 256 ^ Z.of_nat n.
Proof. rewrite Nat2Z.inj_succ, Z.pow_succ_r by lia. reflexivity. Qed.
Lemma of_le_bytes n : forall x, of_le (le_bytes n x) = x mod 256 ^ Z.of_nat n.
Proof.
  induction n as [|n IH]; intros x; cbn [le_bytes of_le]; [change (256 ^ Z.of_nat 0) with 1; now rewrite Z.mod_1_r|].
  rewrite IH, pow256_S, Z.rem_mul_r by lia. reflexivity.
Qed.
Lemma le_bytes_range n : forall x b, In b (le_bytes n x) -> 0 <= b < 256.
Proof. induction n as [|n IH]; intros x b; cbn; [intros []|]. intros [<-|I]; [lia|eauto]. Qed.
Lemma take_app l r : take (List.length l) (l ++ r) = Some (l, r).
Proof. induction l as [|b l IH]; cbn; auto. now rewrite IH. Qed.
Lemma read_le n x r : read_uint n (le_bytes n x ++ r) = Some (x mod 256 ^ Z.of_nat n, r).
Proof.
  unfold read_uint. pose proof (take_app (le_bytes n x) r) as H. rewrite le_bytes_length in H. rewrite H, of_le_bytes. reflexivity.
Qed.
Lemma read_u32 x r : 0 <= x < 4294967296 -> read_uint 4 (write_u32 x ++ r) = Some (x, r).
Proof. intros H. unfold write_u32. rewrite read_le. change (256 ^ Z.of_nat 4) with 4294967296. unfold to_u32. rewrite !Z.mod_small; auto. rewrite Z.mod_small; auto. Qed.
Lemma bits_range d : 0 <= bits_of_b64 d < 256 ^ Z.of_nat 8.
Proof. apply (bits_of_binary_float_range 52 11 eq_refl eq_refl d). Qed.
Lemma bits_inv d : b64_of_bits (bits_of_b64 d) = d.
Proof. exact (binary_float_of_bits_of_binary_float 52 11 eq_refl eq_refl eq_refl d). Qed.
Lemma read_pos p r : read_coord (wkb_pos p ++ r) = Some (coord_of p, r).
Proof.
  unfold read_coord, wkb_pos, write_double. rewrite <- app_assoc, read_le, Z.mod_small by apply bits_range.
  rewrite read_le, Z.mod_small by apply bits_range. now rewrite !bits_inv.
Qed.
Lemma read_positions ps : forall r, read_coords (List.length ps) (flat_map wkb_pos ps ++ r) = Some (map coord_of ps, r).
Proof.
  induction ps as [|p ps IH]; intros r; cbn [List.length read_coords flat_map map app]; auto. rewrite <- app_assoc, read_pos, IH. reflexivity.
Qed.
Lemma read_counted_pos ps r : Z.of_nat (List.length ps) < 4294967296 ->
  read_counted (write_u32 (Z.of_nat (List.length ps)) ++ flat_map wkb_pos ps ++ r) = Some (map coord_of ps, r).
Proof. intros H. unfold read_counted. rewrite read_u32 by lia. rewrite Nat2Z.id. apply read_positions. Qed.

Lemma read_header s t r g : (t = 1 \/ t = 2 \/ t = 3) -> read_body t r = Some g -> read_ewkb (wkb_header s t ++ r) = Some (srid_of s, g).
Proof.
  intros Ht Hb. unfold wkb_header. rewrite <- app_assoc. change (write_u8 wkbNDR) with [1]. cbn [app]. unfold read_ewkb.
  destruct s.
  - rewrite <- app_assoc. rewrite read_u32 by (destruct Ht as [->|[->| ->]]; cbn; lia).
    assert (Z.testbit (Z.lor t wkbSRID) 29 = true) as -> by (destruct Ht as [->|[->| ->]]; reflexivity).
    rewrite read_u32 by (unfold srid; lia).
    assert (Z.clearbit (Z.lor t wkbSRID) 29 = t) as -> by (destruct Ht as [->|[->| ->]]; reflexivity). now rewrite Hb.
  - rewrite read_u32 by (destruct Ht as [->|[->| ->]]; lia).
    assert (Z.testbit t 29 = false) as -> by (destruct Ht as [->|[->| ->]]; reflexivity). now rewrite Hb.
Qed.
Lemma point_ok s p : read_ewkb (point_wkb s p) = Some (srid_of s, SPoint (coord_of p)).
Proof.
  unfold point_wkb. apply read_header; [unfold wkbPoint; auto|]. unfold read_body. change (wkbPoint =? 1) with true. cbn iota.
  pose proof (read_pos p []) as H. rewrite app_nil_r in H. now rewrite H.
Qed.
Lemma positions_length ns : List.length (positions ns) = List.length ns.
Proof. apply map_length. Qed.
Lemma order_length g : List.length (line_order g) = List.length (fw_nodes g).
Proof. unfold line_order. destruct (fw_reverse g); auto. apply rev_length. Qed.
Lemma line_ok s g : nnodes g < 4294967296 -> read_ewkb (line_wkb s g) = Some (srid_of s, SLine (map coord_of (positions (line_order g)))).
Proof.
  intros L. unfold line_wkb. apply read_header; [unfold wkbLineString; auto|]. unfold read_body. change (wkbLineString =? 1) with false. change (wkbLineString =? 2) with true. cbn iota.
  pose proof (read_counted_pos (positions (line_order g)) []) as H. rewrite app_nil_r, positions_length, order_length in H. unfold nnodes in *. now rewrite H.
Qed.
Lemma poly_ok s g : nnodes g < 4294967296 -> read_ewkb (poly_wkb s g) = Some (srid_of s, SPoly [map coord_of (positions (fw_nodes g))]).
Proof.
  intros L. unfold poly_wkb. apply read_header; [unfold wkbPolygon; auto|]. unfold read_body. change (wkbPolygon =? 1) with false. change (wkbPolygon =? 2) with false. change (wkbPolygon =? 3) with true. cbn iota.
  rewrite read_u32 by lia. change (Z.to_nat 1) with 1%nat. cbn [read_rings].
  pose proof (read_counted_pos (positions (fw_nodes g)) []) as H. rewrite app_nil_r, positions_length in H. unfold nnodes in *. now rewrite H.
Qed.

(* ---- hexadecimal ---- *)
Lemma hex_bytes_app a b : hex_bytes (a ++ b) = (hex_bytes a ++ hex_bytes b)%string.
Proof. induction a as [|x a IH]; auto. cbn [app hex_bytes]. now rewrite IH, sapp_assoc. Qed.
Lemma lookup_val i : 0 <= i < 16 -> hex_val (lookup_hex i) = Some i.
Proof.
  intros H. assert (E : i = 0 \/ i = 1 \/ i = 2 \/ i = 3 \/ i = 4 \/ i = 5 \/ i = 6 \/ i = 7 \/ i = 8 \/ i = 9 \/ i = 10 \/ i = 11 \/ i = 12 \/ i = 13 \/ i = 14 \/ i = 15) by lia.
  decompose [or] E; subst; reflexivity.
Qed.
Lemma land15 x : Z.land x 15 = x mod 16.
Proof. change 15 with (Z.ones 4). now rewrite Z.land_ones by lia. Qed.
Lemma hex_byte_val b r l : 0 <= b < 256 -> unhex r = Some l -> unhex (hex_byte b ++ r) = Some (b :: l).
Proof.
  intros Hb Hr. unfold hex_byte. cbn [append unhex]. rewrite !land15, Z.shiftr_div_pow2 by lia. change (2 ^ 4) with 16.
  rewrite !lookup_val by (apply Z.mod_pos_bound; lia). rewrite Hr. do 2 f_equal. unfold to_char. destruct (Z.ltb_spec b 128); lia.
Qed.
Lemma unhex_bytes l : (forall b, In b l -> 0 <= b < 256) -> unhex (hex_bytes l) = Some l.
Proof.
  induction l as [|b l IH]; intros H; cbn [hex_bytes]; auto. apply hex_byte_val; [apply H; now left|]. apply IH. intros c I. apply H. now right.
Qed.
Lemma hex_header_bytes s t : hex_header s t = hex_bytes (wkb_header s t).
Proof. unfold hex_header, wkb_header. rewrite hex_bytes_app. destruct s; [rewrite hex_bytes_app|]; reflexivity. Qed.
Lemma hex_positions_bytes ps : hex_positions ps = hex_bytes (flat_map wkb_pos ps).
Proof. induction ps as [|p ps IH]; auto. cbn [hex_positions flat_map]. rewrite hex_bytes_app, IH. reflexivity. Qed.
Lemma header_range s t b : In b (wkb_header s t) -> 0 <= b < 256.
Proof.
  unfold wkb_header. rewrite in_app_iff. intros [I|I]; [eapply le_bytes_range; exact I|].
  destruct s; [apply in_app_iff in I as [I|I]|]; eapply le_bytes_range; exact I.
Qed.
Lemma positions_range ps b : In b (flat_map wkb_pos ps) -> 0 <= b < 256.
Proof. rewrite in_flat_map. intros (p & _ & I). unfold wkb_pos in I. apply in_app_iff in I as [I|I]; eapply le_bytes_range; exact I. Qed.
Lemma point_hex_ok s p : unhex (point_hex s p) = Some (point_wkb s p).
Proof.
  rewrite <- unhex_bytes; [|intros b I; unfold point_wkb in I; apply in_app_iff in I as [I|I]; [eapply header_range; eauto|]].
  - f_equal. unfold point_hex, point_wkb. rewrite hex_bytes_app, hex_header_bytes. reflexivity.
  - apply (positions_range [p]). cbn [flat_map]. rewrite app_nil_r. exact I.
Qed.
Lemma line_hex_ok s g : unhex (line_hex s g) = Some (line_wkb s g).
Proof.
  rewrite <- unhex_bytes; [|intros b I; unfold line_wkb in I; rewrite !in_app_iff in I; destruct I as [I|[I|I]]; [eapply header_range; eauto|eapply le_bytes_range; exact I|eapply positions_range; eauto]].
  f_equal. unfold line_hex, line_wkb. now rewrite !hex_bytes_app, hex_header_bytes, hex_positions_bytes.
Qed.
Lemma poly_hex_ok s g : unhex (poly_hex s g) = Some (poly_wkb s g).
Proof.
  rewrite <- unhex_bytes; [|intros b I; unfold poly_wkb in I; rewrite !in_app_iff in I; destruct I as [I|[I|[I|I]]]; [eapply header_range; eauto|eapply le_bytes_range; exact I|eapply le_bytes_range; exact I|eapply positions_range; eauto]].
  f_equal. unfold poly_hex, poly_wkb. now rewrite !hex_bytes_app, hex_header_bytes, hex_positions_bytes.
Qed.

(* ---- reverse ---- *)
Lemma line_reverse_thm ns : (forall s, line_wkb s (linestring_new ns true) = line_wkb s (linestring_new (rev ns) false)) /\
  (forall s, line_hex s (linestring_new ns true) = line_hex s (linestring_new (rev ns) false)) /\
  (forall fmt s, line_wkt fmt s (linestring_new ns true) = line_wkt fmt s (linestring_new (rev ns) false)).
Proof.
  unfold line_wkb, line_hex, line_wkt, nnodes, line_order, linestring_new. cbn [fw_nodes fw_reverse]. rewrite rev_length. auto.
Qed.
Lemma last_cons_default {A} (r : list A) : forall n d, last (n :: r) d = last r n.
Proof.
  induction r as [|m r IH]; intros n d; auto. change (last (n :: m :: r) d) with (last (m :: r) d). now rewrite (IH m d), <- (IH m n).
Qed.
Lemma polygon_new_iff ns reverse : ns <> [] ->
  polygon_new ns reverse = if wn_ref (hd (mkWN 0 undef_pos) ns) =? wn_ref (last ns (mkWN 0 undef_pos)) then Ok (mkFW ns reverse) else Throw ERingNotClosed.
Proof.
  intros H. unfold polygon_new, is_closed. destruct ns as [|n r]; [congruence|]. cbn [obind hd].
  assert (last (n :: r) (mkWN 0 undef_pos) = last r n) as ->.
  { apply last_cons_default. }
  reflexivity.
Qed.

(* ---- shapes ---- *)
Lemma pos_eqb_eq p q : pos_eqb p q = true <-> p = q.
Proof.
  unfold pos_eqb. rewrite andb_true_iff, !Z.eqb_eq. split; [intros [A B]; destruct p, q; cbn in *; congruence|intros ->; auto].
Qed.
Lemma checked_squeeze : forall r n, consistent (n :: r) -> wn_pos n :: checked n r = squeeze (positions (n :: r)).
Proof.
  induction r as [|m r IH]; intros n Hc; auto.
  assert (Hc' : consistent (m :: r)) by (intros a b Ia Ib; apply Hc; now right).
  specialize (IH m Hc'). cbn [checked positions map] in *. cbn [squeeze]. fold (positions r) in *.
  change (map wn_pos r) with (positions r) in *.
  destruct (Z.eqb_spec (wn_ref m) (wn_ref n)) as [E|E].
  - assert (wn_pos n = wn_pos m) as X by (apply Hc; cbn; auto). rewrite X. rewrite (proj2 (pos_eqb_eq _ _) eq_refl). exact IH.
  - destruct (pos_eqb (wn_pos m) (wn_pos n)) eqn:P.
    + apply pos_eqb_eq in P. rewrite <- P at 1. rewrite P. rewrite (proj2 (pos_eqb_eq _ _) eq_refl). rewrite <- P. exact IH.
    + assert (pos_eqb (wn_pos n) (wn_pos m) = false) as ->.
      { destruct (pos_eqb (wn_pos n) (wn_pos m)) eqn:Q; auto. apply pos_eqb_eq in Q. rewrite Q, (proj2 (pos_eqb_eq _ _) eq_refl) in P. discriminate. }
      f_equal. exact IH.
Qed.
Lemma shp_thm g : consistent (fw_nodes g) -> wnl_has_position (fw_nodes g) = true ->
  let ps := squeeze (positions (fw_nodes g)) in
  line_or_polygon g =
    if (List.length ps <? 2)%nat then Throw EIllegalGeometry
    else let ps' := if fw_reverse g then rev ps else ps in Ok (map pos_lon ps', map pos_lat ps').
Proof.
  intros Hc Hp ps. unfold line_or_polygon. rewrite Hp. cbn [negb]. subst ps.
  destruct (fw_nodes g) as [|n0 [|n1 r]] eqn:E; [discriminate|reflexivity|].
  pose proof (checked_squeeze (n1 :: r) n0 Hc) as Sq. rewrite <- Sq. set (c := checked n0 (n1 :: r)) in *. clearbody c. cbn zeta. rewrite map_length.
  destruct c as [|q c]; [reflexivity|]. cbn [List.length Nat.eqb Nat.ltb Nat.leb]. destruct (fw_reverse g); auto. now rewrite !map_rev.
Qed.
Lemma stretched_inv sq q r : stretched sq (q :: r) -> exists n l l', sq = q :: l /\ r = repeat q n ++ l' /\ stretched l l'.
Proof. intros H. inversion H as [|p n l l' Hs E1 E2]. subst. eauto 6. Qed.
Lemma squeeze_facts ps : no_repeat (squeeze ps) /\ stretched (squeeze ps) ps.
Proof.
  induction ps as [|p r [IH1 IH2]]; [split; [exact I|constructor]|]. cbn [squeeze]. destruct r as [|q r].
  - split; [exact I|]. apply (st_cons p 0 [] []). constructor.
  - destruct (stretched_inv _ _ _ IH2) as (n & l & l' & E1 & E2 & Hs). rewrite E1 in *. destruct (pos_eqb p q) eqn:E.
    + split; auto. apply pos_eqb_eq in E as ->. rewrite E2. apply (st_cons q (S n) l l'). exact Hs.
    + split; [|apply (st_cons p 0 (q :: l) (q :: r)); exact IH2].
      split; auto. intros ->. rewrite (proj2 (pos_eqb_eq _ _) eq_refl) in E. discriminate.
Qed.

(* ---- parts ---- *)
Section GeosInd.
  Variable Q : geos -> Prop.
  Hypothesis H1 : forall cs, Q (GLine cs).
  Hypothesis H2 : forall e hs, Q (GPolygon e hs).
  Hypothesis H3 : forall l, Forall Q l -> Q (GMulti l).
  Hypothesis H4 : Q GOther.
  Fixpoint geos_ind' (g : geos) : Q g :=
    match g with
    | GLine cs => H1 cs
    | GPolygon e hs => H2 e hs
    | GMulti l => H3 l ((fix go l : Forall Q l := match l with [] => Forall_nil Q | x :: r => Forall_cons x (geos_ind' x) (go r) end) l)
    | GOther => H4
    end.
End GeosInd.
Fixpoint starts (from : Z) (rings : list (list coord)) : list Z :=
  match rings with [] => [] | r :: l => from :: starts (from + Z.of_nat (List.length r)) l end.
Definition dump_rings (rs : list (list coord)) (d : dump) : dump := fold_left (fun d r => dump_line r d) rs d.
Lemma dump_rings_app a b d : dump_rings (a ++ b) d = dump_rings b (dump_rings a d).
Proof. apply fold_left_app. Qed.
Lemma dump_known g : geos_known g -> forall d, dump_geometry g d = Ok (dump_rings (geos_rings g) d).
Proof.
  induction g as [cs|e hs|l IH|] using geos_ind'; intros K d; auto; [|destruct K].
  cbn [dump_geometry geos_rings]. revert d. induction l as [|x l IHl]; intros d; auto.
  inversion IH as [|? ? Hx Hl]; subst. destruct K as [Kx Kl]. rewrite (Hx Kx). cbn [obind]. rewrite dump_rings_app. apply (IHl Hl Kl).
Qed.
Lemma dump_rings_spec rs : forall d, d_parts (dump_rings rs d) = d_parts d ++ starts (Z.of_nat (List.length (d_x d))) rs /\
  d_x (dump_rings rs d) = d_x d ++ map fst (List.concat rs) /\ d_y (dump_rings rs d) = d_y d ++ map snd (List.concat rs).
Proof.
  induction rs as [|r rs IH]; intros d; cbn [dump_rings fold_left]; [cbn; rewrite !app_nil_r; auto|].
  change (fold_left (fun d r => dump_line r d) rs (dump_line r d)) with (dump_rings rs (dump_line r d)).
  destruct (IH (dump_line r d)) as (A & B & C). rewrite A, B, C. unfold dump_line. cbn [d_parts d_x d_y starts List.concat].
  rewrite app_length, map_length, Nat2Z.inj_add, <- !app_assoc, !map_app. auto.
Qed.
Lemma cut_starts {A} (f : coord -> A) rs : forall pre, rs <> [] ->
  cut (starts (Z.of_nat (List.length pre)) rs) (pre ++ map f (List.concat rs)) = map (map f) rs.
Proof.
  induction rs as [|r rs IH]; intros pre Hn; [congruence|]. cbn [starts].
  destruct rs as [|r2 rs].
  - cbn [starts cut List.concat]. rewrite Nat2Z.id, skipn_app, skipn_all, Nat.sub_diag, app_nil_r. reflexivity.
  - change (starts (Z.of_nat (List.length pre) + Z.of_nat (List.length r)) (r2 :: rs)) with
      ((Z.of_nat (List.length pre) + Z.of_nat (List.length r)) :: starts (Z.of_nat (List.length pre) + Z.of_nat (List.length r) + Z.of_nat (List.length r2)) rs).
    cbn [cut]. rewrite Nat2Z.id, skipn_app, skipn_all, Nat.sub_diag. cbn [skipn app].
    replace (Z.of_nat (List.length pre) + Z.of_nat (List.length r) - Z.of_nat (List.length pre)) with (Z.of_nat (List.length r)) by lia. rewrite Nat2Z.id.
    cbn [map]. f_equal.
    + cbn [List.concat]. rewrite map_app, firstn_app, map_length, Nat.sub_diag, firstn_O, app_nil_r.
      rewrite <- (map_length f r). apply firstn_all.
    + specialize (IH (pre ++ map f r) ltac:(discriminate)). rewrite app_length, map_length, Nat2Z.inj_add in IH. cbn [starts] in IH.
      cbn [List.concat] in *. rewrite map_app, app_assoc. exact IH.
Qed.
Lemma parts_thm g : geos_known g -> List.concat (geos_rings g) <> [] ->
  exists d, multipolygon_shp g = Ok d /\ cut (d_parts d) (combine (d_x d) (d_y d)) = geos_rings g /\ List.length (d_x d) = List.length (d_y d).
Proof.
  intros K Hn. unfold multipolygon_shp. rewrite (dump_known g K). cbn [obind].
  destruct (dump_rings_spec (geos_rings g) (mkDump [] [] [])) as (A & B & C). cbn [d_parts d_x d_y app List.length] in *. change (Z.of_nat 0) with 0 in A.
  set (rs := geos_rings g) in *. set (d := dump_rings rs (mkDump [] [] [])) in *.
  exists d. split; [|split].
  - rewrite A, B. destruct rs as [|r l]; [cbn in Hn; congruence|]. cbn [starts]. destruct (List.concat (r :: l)) eqn:E; [congruence|]. reflexivity.
  - rewrite A, B, C. assert (combine (map fst (List.concat rs)) (map snd (List.concat rs)) = List.concat rs) as ->.
    { clear. induction (List.concat rs) as [|[a b] l IH]; auto. cbn. now rewrite IH. }
    pose proof (cut_starts (fun c : coord => c) rs []) as X. cbn [List.length app] in X. rewrite map_id in X. change (Z.of_nat 0) with 0 in X.
    etransitivity; [apply X|].
    + intros E. rewrite E in Hn. now apply Hn.
    + etransitivity; [|apply map_id]. apply map_ext. intros a. apply map_id.
  - rewrite B, C, !map_length. reflexivity.
Qed.

Lemma shape_reverse ns lon lat : line_or_polygon (mkFW ns false) = Ok (lon, lat) -> line_or_polygon (mkFW ns true) = Ok (rev lon, rev lat).
Proof.
  unfold line_or_polygon. cbn [fw_nodes fw_reverse]. destruct (negb _); [discriminate|]. destruct ns as [|n0 [|n1 r]]; try discriminate.
  cbn zeta. destruct (_ =? 1)%nat; [discriminate|]. now intros [= <- <-].
Qed.

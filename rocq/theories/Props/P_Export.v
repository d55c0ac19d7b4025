(** C83: the scripts that export fixed sets of shapefiles. *)
From Verif Require Import Base.Prelude Base.Decimal Model.Osm Model.Geom Model.Shapefile Model.Handler Model.Unicode Model.Js Model.Osmjs Model.Osm2shape Model.Export
  Spec.UnicodeSpec Spec.JsSpec Spec.Osm2shapeSpec Spec.ExportSpec Proofs.Export2Proofs.
Local Open Scope Z_scope.

(** shape_export.js: a row for every restaurant, pub and supermarket among the nodes, for every way with a
    highway tag and for every area with a landuse tag, if the geometry fits; no other rows; in the end the
    files are closed and have the geometries of their rows. *)
Theorem C83_shape_export : forall to_int32 proto proto2 shape cs, Forall (export_ok proto shape) cs ->
  exists w, shape_export_js to_int32 proto proto2 shape (cs ++ [CFinal]) = Ok w /\ exported shape export_tables (export_says to_int32) cs (x_rows w) /\
    forall n k cols, In (n, k, cols) export_tables -> exists s, own (utf16 n) (x_open w) = Some s /\ ss_type s = kind_shape k /\ ss_fields s = map column_field cols /\
      ss_cur s = None /\ flat_map sf_shapes (ss_done s) = shapes_of shape n (x_rows w).
Proof. exact shape_export_rows. Qed.
Print Assumptions C83_shape_export.
(** area.js: a row for every area. *)
Theorem C83_area : forall to_int32 proto shape cs, Forall (export_ok proto shape) cs ->
  exists w, area_js to_int32 shape (cs ++ [CFinal]) = Ok w /\ exported shape area_tables (area_says to_int32) cs (x_rows w) /\
    forall n k cols, In (n, k, cols) area_tables -> exists s, own (utf16 n) (x_open w) = Some s /\ ss_type s = kind_shape k /\ ss_fields s = map column_field cols /\
      ss_cur s = None /\ flat_map sf_shapes (ss_done s) = shapes_of shape n (x_rows w).
Proof. exact area_rows. Qed.
Print Assumptions C83_area.
(** The expression for speeds takes exactly the number out of the texts that are speeds. *)
Theorem C83_speed : forall v, text v -> (forall d, speed (utf16 v) = Some d -> speed_text v d /\ utf16 d = d) /\ (speed (utf16 v) = None -> forall d, ~ speed_text v d).
Proof. exact speed_ok. Qed.
Print Assumptions C83_speed.
Example C83_speed_ex : map (fun s => speed (lit s)) ["50"; "50 "; "120 km/h"; "30kmh"; "30 mph"; "walk"; "50 km/h "; "RO:urban"]%string =
  [Some (lit "50"); Some (lit "50"); Some (lit "120"); Some (lit "30"); None; None; None; None].
Proof. reflexivity. Qed.

Definition xp_attrs (id : Z) (ts : list (string * string)) : attrs := mkAttrs id 1 7 1000000000 0 5 "joe" true (map (fun kv => mkTag (fst kv) (snd kv)) ts).
Definition xp_int (u : jstr) : Z := if forallb (fun c => (48 <=? c) && (c <=? 57)) u then number_of u else 0.
Definition xp_shape (o : this) : outcome shp :=
  match o with
  | OnObject (ONode _) => Ok (mkShp SHPT_POINT 1 1 0)
  | OnObject (OWay w) => match w_nodes w with [] => Throw EIllegalGeometry | _ => Ok (mkShp SHPT_ARC 1 2 0) end
  | OnArea _ => Ok (mkShp SHPT_POLYGON 1 4 0)
  | _ => Throw EIllegalGeometry
  end.
Definition xp_proto (u : jstr) : option jsattr := if js_inherited u then Some (AVal (lit "function () { [native code] }") 0) else None.
Definition xp_none (f u : jstr) : option jsattr := None.
Definition pub : callback := CObj (ONode (mkNode (xp_attrs 17 [("amenity", "pub"); ("name", "Joe's"); ("shop", "supermarket")]%string) (mkPos 10 20))).
Definition bench : callback := CObj (ONode (mkNode (xp_attrs 18 [("amenity", "bench"); ("name", "B")]%string) (mkPos 10 20))).
Definition road : callback := CObj (OWay (mkWay (xp_attrs 5 [("highway", "primary"); ("oneway", "-1"); ("maxspeed", "80 km/h")]%string) [mkWN 1 (mkPos 0 0); mkWN 2 (mkPos 1 1)])).
Definition empty_road : callback := CObj (OWay (mkWay (xp_attrs 6 [("highway", "primary")]%string) [])).
Definition wood : callback := CArea (xp_attrs 12 [("landuse", "forest"); ("building", "yes")]%string).
Definition xp_calls : list callback := [CInit; pub; bench; road; empty_road; wood].
Example C83_export_ex : exists w, shape_export_js xp_int xp_proto xp_none xp_shape (xp_calls ++ [CFinal]) = Ok w /\
  map (fun r => (or_file r, or_values r)) (x_rows w) =
    [(lit "./pois", [DString 0 "17"; DString 1 "pub"; DString 2 "Joe's"]); (lit "./pois", [DString 0 "17"; DString 1 "supermarket"; DString 2 "Joe's"]);
     (lit "./roads", [DInt 0 5; DString 1 "primary"; DNull 2; DInt 3 2; DInt 4 80]); (lit "./landuse", [DInt 0 12; DString 1 "forest"])]%string.
Proof. eexists. split; [vm_compute; reflexivity|]. vm_compute. reflexivity. Qed.
Example C83_area_ex : exists w, area_js xp_int xp_shape (xp_calls ++ [CFinal]) = Ok w /\
  map (fun r => (or_file r, or_values r)) (x_rows w) = [(lit "./areas", [DInt 0 12; DString 1 "building"; DNull 2])]%string.
Proof. eexists. split; [vm_compute; reflexivity|]. vm_compute. reflexivity. Qed.
(** they meet the hypotheses *)
Example C83_ok : Forall (export_ok xp_proto xp_shape) xp_calls.
Proof.
  assert (G : forall ts : list (string * string), NoDup (map fst ts) ->
    forallb (fun kv => forallb (fun c => (0 <? c) && (c <? 128)) (ascii_text (fst kv) ++ ascii_text (snd kv)) && (Nat.ltb (List.length (ascii_text (fst kv) ++ ascii_text (snd kv))) 512) &&
                       match xp_proto (utf16 (ascii_text (fst kv))), xp_proto (utf16 (ascii_text (snd kv))) with None, None => true | _, _ => false end) ts = true ->
    map (fun kv => mkTag (fst kv) (snd kv)) ts = tags_of (map (fun kv => (ascii_text (fst kv), ascii_text (snd kv))) ts) ->
    exists kvs, map (fun kv => mkTag (fst kv) (snd kv)) ts = tags_of kvs /\ tags_fine xp_proto kvs).
  { intros ts N F E. eexists. split; [exact E|]. rewrite forallb_forall in F. split.
    - rewrite map_map. cbn [fst]. rewrite <- (map_map fst ascii_text). apply FinFun.Injective_map_NoDup; [|exact N]. intros x y H. apply (f_equal (map (fun c => ascii_of_N (Z.to_N c)))) in H.
      unfold ascii_text in H. rewrite !map_map in H. assert (Id : forall l, map (fun c => ascii_of_N (Z.to_N (Z.of_N (N_of_ascii c)))) l = l).
      { induction l as [|c l IH]; [reflexivity|]. cbn [map]. now rewrite N2Z.id, ascii_N_embedding, IH. }
      rewrite !Id in H. apply (f_equal string_of_list_ascii) in H. now rewrite !string_of_list_ascii_of_string in H.
    - apply Forall_map. apply Forall_forall. intros [k v] I. specialize (F _ I). cbn [fst snd] in *. rewrite !andb_true_iff in F. destruct F as ((F1 & F2) & F3).
      rewrite forallb_app, andb_true_iff, !forallb_forall in F1. destruct F1 as [Fk Fv]. apply Nat.ltb_lt in F2. rewrite app_length in F2.
      assert (Sh : forall s, (forall c, In c (ascii_text s) -> (0 <? c) && (c <? 128) = true) -> (List.length (ascii_text s) < 512)%nat -> okv (ascii_text s)).
      { intros s Fs L. apply ok_word; [|exact L]. apply forallb_forall. intros c J. specialize (Fs c J). lia. }
      destruct (Sh k Fk ltac:(lia)) as [Sk _]. destruct (Sh v Fv ltac:(lia)) as [Sv Nv]. destruct (xp_proto (utf16 (ascii_text k))); [discriminate|]. destruct (xp_proto (utf16 (ascii_text v))); [discriminate|]. auto 7. }
  assert (H : forall c, c <> CFinal -> (forall t o a, subject c = Some (t, o, a) -> - 9007199254740992 <= o_id a <= 9007199254740992 /\ (exists kvs, o_tags a = tags_of kvs /\ tags_fine xp_proto kvs) /\
    (xp_shape o = Throw EIllegalGeometry \/ exists p, xp_shape o = Ok p /\ 0 <= s_vertices p < 1073741824)) -> export_ok xp_proto xp_shape c) by (intros; split; assumption).
  unfold xp_calls. repeat apply Forall_cons; try apply Forall_nil; (apply H; [discriminate|]); intros t o a E; inversion E; subst; (split; [cbn; lia|]);
    (split; [cbn [o_tags n_attrs w_attrs xp_attrs]; apply G; [cbn; repeat constructor; cbn; intuition discriminate|vm_compute; reflexivity|vm_compute; reflexivity]|]);
    first [left; reflexivity|right; eexists; split; [reflexivity|cbn; lia]].
Qed.
(** A node gets into the file though none of its tags makes it a point of interest. *)
Theorem C83_inherited_refuted : exists ts p w r, (forall kv, In kv ts -> is_poi (ascii_text (fst kv), ascii_text (snd kv)) = false) /\
  shape_export_js xp_int xp_proto xp_none xp_shape [CInit; CObj (ONode (mkNode (xp_attrs 17 ts) p)); CFinal] = Ok w /\ x_rows w = [r].
Proof.
  exists [("amenity", "constructor")]%string, (mkPos 10 20). eexists. eexists. split; [intros kv [<-|[]]; reflexivity|]. split; [vm_compute; reflexivity|]. reflexivity.
Qed.
Print Assumptions C83_inherited_refuted.
(** In the column for the id of roads, large ids become other numbers. *)
Theorem C83_id_refuted : exists a n w r, o_id a = 4294967297 /\
  shape_export_js xp_int xp_proto xp_none xp_shape [CInit; CObj (OWay (mkWay a n)); CFinal] = Ok w /\ x_rows w = [r] /\ nth_error (or_values r) 0 = Some (DInt 0 1).
Proof.
  exists (xp_attrs 4294967297 [("highway", "track")]%string), [mkWN 1 (mkPos 0 0); mkWN 2 (mkPos 1 1)]. eexists. eexists.
  split; [reflexivity|]. split; [vm_compute; reflexivity|]. split; reflexivity.
Qed.
Print Assumptions C83_id_refuted.

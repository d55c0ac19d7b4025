(** The example programs that write to a database with OGR: examples/osmium_toogr.cpp and
    examples/osmium_to_postgis.cpp, on top of Model/Handler.v (CoordinatesForWays), Model/Area.v
    (create_ogr_geometry) and Model/Tags.v.
    OGR is outside the model: [lib] says whether the n-th CreateFeature succeeds; what was given to the
    features is kept as a list of rows.  The programs run only if the layers could be created.
    Messages and command line options are left out. *)
From Verif Require Import Base.Prelude Base.Decimal Model.Osm Model.Float Model.Geom Model.Area Model.Tags Model.Handler Model.Convert.

(** a feature: its geometry, the field "id", and what is given to the text field; None is a null pointer *)
Record feature (I : Type) := mkFeature { ft_geom : ogr; ft_id : I; ft_text : option string }.
Arguments mkFeature {I}. Arguments ft_geom {I}. Arguments ft_id {I}. Arguments ft_text {I}.
(** exit(1), as an exception that nobody catches *)
Definition EExit : exn := EOther 30.

(* ---- osmium_toogr.cpp ---- *)
(** osmium_toogr.cpp 33-38: the stores, the features in the two layers, the number of CreateFeature calls *)
Record ostate (P N : Type) := mkO { og_stores : P * N; og_points : list (feature double); og_lines : list (feature double); og_calls : nat }.
Arguments mkO {P N}. Arguments og_stores {P N}. Arguments og_points {P N}. Arguments og_lines {P N}. Arguments og_calls {P N}.

Section Toogr.
  Context {P N : Type}.
  Variable pset : Z -> position -> P -> outcome P.
  Variable pget : Z -> P -> outcome position.
  Variable nset : Z -> position -> N -> outcome N.
  Variable nget : Z -> N -> outcome position.
  Variable lib : nat -> bool.
  (** osmium_toogr.cpp 42-112: the constructor *)
  Definition toogr_new (p0 : P) (n0 : N) : ostate P N := mkO (p0, n0) [] [] 0.
  (** osmium_toogr.cpp 126-147: the part of node() after CoordinatesForWays *)
  Definition ogr_node (n : node) (s : ostate P N) : ostate P N * option halt :=
    match get_value_by_key (o_tags (n_attrs n)) "amenity" with
    | Some v =>
        if String.eqb v "post_box" then
          let f := mkFeature (ogr_point (n_pos n)) (d_of_Z (o_id (n_attrs n))) (get_value_by_key (o_tags (n_attrs n)) "operator") in
          if lib (og_calls s) then (mkO (og_stores s) (og_points s ++ [f]) (og_lines s) (S (og_calls s)), None)
          else (mkO (og_stores s) (og_points s) (og_lines s) (S (og_calls s)), Some (HExn EExit))
        else (s, None)
    | None => (s, None)
    end.
  (** osmium_toogr.cpp 162-183: the part of way() after CoordinatesForWays *)
  Definition ogr_way (w : way) (s : ostate P N) : ostate P N * option halt :=
    match get_value_by_key (o_tags (w_attrs w)) "highway" with
    | Some v =>
        let f := mkFeature (ogr_line (linestring_new (w_nodes w) false)) (d_of_Z (o_id (w_attrs w))) (Some v) in
        if lib (og_calls s) then (mkO (og_stores s) (og_points s) (og_lines s ++ [f]) (S (og_calls s)), None)
        else (mkO (og_stores s) (og_points s) (og_lines s) (S (og_calls s)), Some (HExn EExit))
    | None => (s, None)
    end.
  (** osmium_toogr.cpp 120-184: the handler; init() and after_nodes() of CoordinatesForWays do nothing *)
  Definition toogr (c : callback) (s : ostate P N) : ostate P N * option halt :=
    match c with
    | CObj o =>
        match cfw_step pset pget nset nget o (og_stores s) with
        | Ok (o', st) =>
            let s1 := mkO st (og_points s) (og_lines s) (og_calls s) in
            match o' with
            | ONode n => ogr_node n s1
            | OWay w => ogr_way w s1
            | ORel _ => (s1, None)
            end
        | Throw e => (s, Some (HExn e))
        | UB | AssertFail => (s, Some HUB)
        end
    | _ => (s, None)
    end.
End Toogr.

(* ---- osmium_to_postgis.cpp ---- *)
(** osmium_to_postgis.cpp 36: the layer: a transaction is open, the features since it was opened or committed, and
    those that are committed; the number of CreateFeature calls *)
Record pgstate := mkPg { pg_open : bool; pg_pending : list (feature string); pg_table : list (feature string); pg_calls : nat }.
(** osmium_to_postgis.cpp 42-85: the constructor; the table is created and the transaction started *)
Definition pg_new : pgstate := mkPg true [] [] 0.
(** osmium_to_postgis.cpp 45, 83-84: the filter *)
Definition pg_filter : key_filter := kf_add false "odbl" (kf_add false "created_by" (key_filter_new true)).

Section Postgis.
  Variable lib : nat -> bool.
  (** osmium_to_postgis.cpp 92-118: node(); lexical_cast of the id is its decimal form.  The None of the
      accumulation does not occur. *)
  Definition pg_node (n : node) (s : pgstate) : pgstate * option halt :=
    let ts := o_tags (n_attrs n) in
    match ts with
    | [] => (s, None)
    | _ =>
        match filter_and_accumulate (kf_apply pg_filter) (tts_op tts_hstore) ts ""%string with
        | None => (s, Some HUB)
        | Some text =>
            if String.eqb text "" then (s, None)
            else
              let f := mkFeature (ogr_point (n_pos n)) (print_Z (o_id (n_attrs n))) (Some (c_str text)) in
              if lib (pg_calls s) then (mkPg (pg_open s) (pg_pending s ++ [f]) (pg_table s) (S (pg_calls s)), None)
              else (mkPg (pg_open s) (pg_pending s) (pg_table s) (S (pg_calls s)), Some (HExn EExit))
        end
    end.
  (** osmium_to_postgis.cpp 92-122: the handler; 120-122: CommitTransaction() writes what is pending.  It is assumed to
      succeed, as its result is not looked at. *)
  Definition postgis (c : callback) (s : pgstate) : pgstate * option halt :=
    match c with
    | CObj (ONode n) => pg_node n s
    | CAfter NODE => (mkPg false [] (pg_table s ++ pg_pending s) (pg_calls s), None)
    | _ => (s, None)
    end.
  (** osmium_to_postgis.cpp 177-181: what is in the table when the program has ended.  87-90: at the end of main() the
      data source is closed and what was added outside of a transaction is there; [commits]: so is what was added in an
      open one.  The program does not get there after an exception or exit(). *)
  Definition to_postgis (commits : bool) (r : reading) : list (feature string) * option halt :=
    let '(s, h, _) := input_read postgis r pg_new in
    (match h with
     | None => if pg_open s && negb commits then pg_table s else pg_table s ++ pg_pending s
     | Some _ => pg_table s
     end, h).
End Postgis.

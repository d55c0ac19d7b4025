(** How much room objects take in a PBF file. *)
From Verif Require Import Base.Prelude Model.Osm Model.Utils Model.OsmFile Model.Handler Model.Pbf Spec.UtilsSpec Spec.TagsSpec Spec.HandlerSpec Spec.PbfSpec Spec.Protobuf.
Local Open Scope Z_scope.

(** The libraries write the wire format of protobuf, and zlib adds at most a thousandth and 1000 bytes
    (its compressBound: a 4096th, a 16384th, and 13 bytes). *)
Record wire_format (K : codec) : Prop := {
  wf_blob : forall b, ser_blob K b = put_blob b;
  wf_hb : forall h, ser_hb K h = put_hb h;
  wf_pb : forall b, ser_pb K b = put_pb b;
  wf_zlib : forall d, blen (zdeflate K d) <= blen d + blen d / 1000 + 1000 }.

Definition total {A} (f : A -> Z) (l : list A) : Z := fold_right (fun x n => f x + n) 0 l.
(** a generous estimate of the bytes for an object: its texts, 42 bytes for a tag, 10 for a node of a way,
    41 for a member, 170 for everything else *)
Definition bulk (o : object) : Z :=
  170 + slen (o_user (obj_attrs o)) + total (fun t => 42 + slen (tkey t) + slen (tvalue t)) (o_tags (obj_attrs o)) +
  match o with
  | ONode _ => 0
  | OWay w => total (fun _ => 10) (w_nodes w)
  | ORel r => total (fun m => 41 + slen (m_role m)) (r_members r)
  end.
(** any 8000 objects in a row take at most 33.5 MB *)
Definition moderate (os : list object) : Prop :=
  forall a b c, os = a ++ b ++ c -> Z.of_nat (List.length b) <= 8000 -> total bulk b <= 33500000.
(** Example: 8000 nodes with five tags each, all values different and 255 characters of four bytes long. *)
Fixpoint faces (len : nat) (n : Z) : string :=
  match len with
  | O => ""%string
  | S k => String "240" (String "159" (String "152" (String (if Z.odd n then "129" else "128") (faces k (n / 2)))))
  end.
Definition face_tag (i j : Z) : tag := mkTag (String (ascii_of_N (Z.to_N (97 + j))) "") (faces (Z.to_nat 255) (5 * i + j)).
Definition face_node (i : Z) : object :=
  ONode (mkNode (mkAttrs (i + 1) 1 1 1325376000 0 1 "joto" true (map (face_tag i) [0; 1; 2; 3; 4])) (mkPos i i)).
Definition face_nodes : list object := map (fun i => face_node (Z.of_nat i)) (seq 0 (Z.to_nat 8000)).
Definition plain_cfg : pcfg := mkCfg true false true FtOSM 100 1000 "osmium".

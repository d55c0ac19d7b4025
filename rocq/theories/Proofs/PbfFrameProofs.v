(** PBF files as sequences of blobs. *)
From Verif Require Import Base.Prelude Model.Osm Model.Utils Model.OsmFile Model.Handler Model.Pbf Spec.UtilsSpec Spec.PbfSpec.

Lemma byte_val_range c : 0 <= byte_val c < 256.
Proof. unfold byte_val. pose proof (N_ascii_bounded c). lia. Qed.
Lemma val_byte_val z : byte_val (val_byte z) = z mod 256.
Proof. unfold byte_val, val_byte. rewrite N_ascii_embedding; [apply Z2N.id|]; pose proof (Z.mod_pos_bound z 256); lia. Qed.
Lemma be_value_4 a b c d : be_value [a; b; c; d] = byte_val a * 16777216 + byte_val b * 65536 + byte_val c * 256 + byte_val d.
Proof. unfold be_value, byte_val. cbn [fold_left]. lia. Qed.
Lemma be_value_be32 n : 0 <= n < 4294967296 -> be_value (be32 n) = n.
Proof. intros H. unfold be32. rewrite be_value_4, !val_byte_val. lia. Qed.
Lemma blen_nonneg b : 0 <= blen b.
Proof. unfold blen. lia. Qed.

Lemma reads_ok_suffix a b : reads_ok (a ++ b) -> reads_ok b.
Proof. unfold reads_ok. intros H C. apply H, in_or_app. right; exact C. Qed.

Lemma skipn_skipn_add {A} (l : list A) : forall a b, skipn a (skipn b l) = skipn (b + a) l.
Proof. induction l as [|x l IH]; intros a b; [rewrite !skipn_nil; reflexivity|]. destruct b; [reflexivity|]. cbn. apply IH. Qed.
Lemma read_loop_spec fuel : forall want acc f f' r,
  (List.length (in_rest f) < fuel)%nat -> read_loop fuel want acc f = (f', r) ->
  (exists used, in_sched f = used ++ in_sched f') /\
  match r with
  | RAll b => (want <= List.length (in_rest f))%nat /\ b = acc ++ firstn want (in_rest f) /\ in_rest f' = skipn want (in_rest f)
  | REof => (List.length (in_rest f) < want)%nat
  | RFail => In RErr (in_sched f)
  | RFuel => False
  end.
Proof.
  induction fuel as [|fuel IH]; intros want acc f f' r Hf E; [lia|].
  destruct want as [|want].
  - cbn in E. injection E as <- <-. split; [exists []; reflexivity|]. cbn. rewrite app_nil_r. repeat split. lia.
  - cbn [read_loop] in E. unfold sys_read in E. destruct f as [rest s]. cbn [in_rest in_sched] in *.
    assert (STEP : forall m s1 used, (1 <= m <= S want)%nat -> s = used ++ s1 ->
      (match Some (firstn m rest) with
       | None => (mkIfd (skipn m rest) s1, RFail)
       | Some [] => (mkIfd (skipn m rest) s1, REof)
       | Some (_ :: _) => read_loop fuel (S want - List.length (firstn m rest)) (acc ++ firstn m rest) (mkIfd (skipn m rest) s1)
       end = (f', r)) ->
      (exists used, s = used ++ in_sched f') /\
      match r with
      | RAll b => (S want <= List.length rest)%nat /\ b = acc ++ firstn (S want) rest /\ in_rest f' = skipn (S want) rest
      | REof => (List.length rest < S want)%nat
      | RFail => In RErr s
      | RFuel => False
      end).
    { intros m s1 used Hm Hs HE. destruct (firstn m rest) as [|x b] eqn:EF.
      - injection HE as <- <-. cbn [in_sched]. split; [exists used; exact Hs|].
        destruct rest; [cbn; lia|]. destruct m; [lia|]. discriminate.
      - rewrite <- EF in HE.
        assert (Hl : List.length (firstn m rest) = Nat.min m (List.length rest)) by apply firstn_length.
        assert (Hpos : (1 <= List.length (firstn m rest))%nat) by (rewrite EF; cbn; lia).
        apply IH in HE; [|cbn [in_rest]; rewrite skipn_length; lia]. cbn [in_rest in_sched] in HE. destruct HE as [(u & Hu) Hr].
        split; [exists (used ++ u); rewrite Hs, Hu, app_assoc; reflexivity|].
        rewrite skipn_length in Hr. destruct r as [b'| | |].
        + destruct Hr as (H1 & H2 & H3). assert (Lm : (m <= List.length rest)%nat) by lia.
          assert (E1 : List.length (firstn m rest) = m) by lia. rewrite E1 in *.
          split; [lia|]. split.
          * rewrite H2, <- app_assoc. f_equal. rewrite <- (firstn_skipn m rest) at 3.
            rewrite firstn_app, E1. rewrite (firstn_all2 (n := S want)) by (rewrite E1; lia). reflexivity.
          * rewrite H3, skipn_skipn_add. f_equal. lia.
        + lia.
        + rewrite Hs, in_app_iff. right. exact Hr.
        + exact Hr. }
    destruct s as [|[k|] s].
    + apply (STEP (S want) [] []) in E; [exact E|lia|reflexivity].
    + apply (STEP (Nat.min (S want) (Nat.max 1 k)) s [RSome k]) in E; [exact E|lia|reflexivity].
    + injection E as <- <-. cbn [in_sched]. split; [exists [RErr]; reflexivity|]. left; reflexivity.
Qed.
Lemma read_n_spec want f f' r : read_n want f = (f', r) ->
  (exists used, in_sched f = used ++ in_sched f') /\
  match r with
  | RAll b => (want <= List.length (in_rest f))%nat /\ b = firstn want (in_rest f) /\ in_rest f' = skipn want (in_rest f)
  | REof => (List.length (in_rest f) < want)%nat
  | RFail => In RErr (in_sched f)
  | RFuel => False
  end.
Proof. intros E. apply read_loop_spec in E; [exact E|lia]. Qed.
(** without errors the result is determined by the number of bytes *)
Lemma read_n_ok want f : reads_ok (in_sched f) -> (want <= List.length (in_rest f))%nat ->
  exists s', read_n want f = (mkIfd (skipn want (in_rest f)) s', RAll (firstn want (in_rest f))) /\ reads_ok s'.
Proof.
  intros Hs Hw. destruct (read_n want f) as [f' r] eqn:E. pose proof (read_n_spec _ _ _ _ E) as [(u & Hu) Hr].
  rewrite Hu in Hs. pose proof (reads_ok_suffix _ _ Hs) as Hs'. destruct r.
  - destruct Hr as (_ & -> & H3). exists (in_sched f'). split; [|exact Hs']. destruct f' as [r' s']. cbn in *. congruence.
  - lia.
  - exfalso. rewrite Hu in Hr. exact (Hs Hr).
  - tauto.
Qed.
Lemma read_n_short want f : reads_ok (in_sched f) -> (List.length (in_rest f) < want)%nat ->
  exists f', read_n want f = (f', REof).
Proof.
  intros Hs Hw. destruct (read_n want f) as [f' r] eqn:E. pose proof (read_n_spec _ _ _ _ E) as [_ Hr].
  destruct r; [lia|exists f'; reflexivity|exfalso; exact (Hs Hr)|tauto].
Qed.

Lemma convert_eq a b c d : let v := be_value [a; b; c; d] in
  0 <= v < 4294967296 /\ (v < 2147483648 -> convert_from_network_byte_order a b c d = v) /\
  (2147483648 <= v -> convert_from_network_byte_order a b c d < 0).
Proof.
  cbv zeta. rewrite be_value_4. unfold convert_from_network_byte_order.
  pose proof (byte_val_range a). pose proof (byte_val_range b). pose proof (byte_val_range c). pose proof (byte_val_range d).
  set (v := _ + _). assert (0 <= v < 4294967296) by (unfold v; lia). clearbody v.
  split; [assumption|]. unfold to_i32, int32_min, int32_max in *. split; intros; lia.
Qed.
Lemma len4 (n : bytes) : List.length n = 4%nat -> exists a b c d, n = [a; b; c; d].
Proof. destruct n as [|a [|b [|c [|d [|? ?]]]]]; intros H; try discriminate. eauto. Qed.

Lemma unpack_holds K b d : holds K b d -> unpack_blob K b = Ok d.
Proof.
  intros [H|(H1 & z & H2 & H3 & H4 & H5)]; unfold unpack_blob; [rewrite H; reflexivity|].
  rewrite H1, H2, H4. pose proof (blen_nonneg d). assert (E : to_u64 (blen d) = blen d) by (unfold to_u64, limit in *; lia).
  rewrite E. unfold max_uncompressed_blob_size. unfold limit in H5. assert (G : (blen d >? 33554432) = false) by lia. rewrite G, H3.
  rewrite Z.eqb_refl. reflexivity.
Qed.
Lemma unpack_sound K b d : in_i32 (b_raw_size b) -> unpack_blob K b = Ok d -> holds K b d.
Proof.
  intros Hr. unfold unpack_blob. destruct (b_raw b) as [r|] eqn:E1; [intros [= ->]; left; exact E1|].
  destruct (b_zlib b) as [z|] eqn:E2; [|discriminate].
  destruct (_ >? _) eqn:E3; [discriminate|]. destruct (zinflate K z _) as [d'|] eqn:E4; [|discriminate].
  destruct (_ =? _) eqn:E5; [|discriminate]. intros [= <-]. right. split; [exact E1|]. exists z.
  pose proof (blen_nonneg d'). unfold in_i32, int32_min, int32_max, max_uncompressed_blob_size, limit, to_u64 in *.
  assert (b_raw_size b = blen d') by lia.
  assert (E : b_raw_size b mod 18446744073709551616 = blen d') by lia. rewrite E in *.
  repeat split; try assumption; lia.
Qed.
Lemma unpack_not_ub K b : unpack_blob K b <> UB.
Proof. unfold unpack_blob. repeat (match goal with |- context [match ?x with _ => _ end] => destruct x end; try discriminate). Qed.
Lemma unpack_throw K b e : unpack_blob K b = Throw e -> e = ERuntime.
Proof. unfold unpack_blob. repeat (match goal with |- context [match ?x with _ => _ end] => destruct x end; try congruence). Qed.

Section Frames.
Variable K : codec.

(* ---- one blob ---- *)
Lemma firstn_app_exact {A} (a b : list A) n : n = List.length a -> firstn n (a ++ b) = a.
Proof. intros ->. rewrite firstn_app, Nat.sub_diag, firstn_all, firstn_O, app_nil_r. reflexivity. Qed.
Lemma skipn_app_exact {A} (a b : list A) n : n = List.length a -> skipn n (a ++ b) = b.
Proof. intros ->. rewrite skipn_app, Nat.sub_diag, skipn_all. reflexivity. Qed.

Lemma header_size n head : List.length n = 4%nat -> be_value n = blen head -> blen head <= 65536 ->
  exists a b c d, n = [a; b; c; d] /\ convert_from_network_byte_order a b c d = blen head /\
    ((blen head >? max_blob_header_size) || (blen head <? 0))%bool = false.
Proof.
  intros Hn Hv Hh. destruct (len4 n Hn) as (a & b & c & d & ->). destruct (convert_eq a b c d) as (R & C1 & _).
  rewrite Hv in *. exists a, b, c, d. split; [reflexivity|]. pose proof (blen_nonneg head).
  split; [apply C1; lia|]. unfold max_blob_header_size. lia.
Qed.
Lemma to_nat_blen b : Z.to_nat (blen b) = List.length b.
Proof. unfold blen. apply Nat2Z.id. Qed.

Lemma read_frame x fr rest s : blob_bytes K x fr -> reads_ok s ->
  exists n s1 s2 r1, read_blob_header K (mkIfd (fr ++ rest) s) = (mkIfd r1 s1, Ok (Some (mkBH (fst x) n))) /\
    read_blob K n (mkIfd r1 s1) = (mkIfd rest s2, Ok (snd x)) /\ reads_ok s2.
Proof.
  intros (n & head & body & b & -> & Hn & Hv & Hh & Hb & P1 & P2 & H) Hs.
  destruct (header_size n head Hn Hv Hh) as (a & b0 & c & d & -> & C1 & C2).
  exists (blen body). unfold read_blob_header.
  destruct (read_n_ok 4 (mkIfd (([a; b0; c; d] ++ head ++ body) ++ rest) s)) as (s1 & E1 & Hs1); [exact Hs| |].
  { cbn [in_rest]. rewrite !app_length, Hn. lia. }
  cbn [in_rest] in E1. rewrite E1. rewrite <- app_assoc.
  rewrite (firstn_app_exact [a; b0; c; d]), (skipn_app_exact [a; b0; c; d]) by reflexivity.
  rewrite C1, C2, to_nat_blen.
  destruct (read_n_ok (List.length head) (mkIfd ((head ++ body) ++ rest) s1)) as (s2 & E2 & Hs2); [exact Hs1| |].
  { cbn [in_rest]. rewrite !app_length. lia. }
  cbn [in_rest] in E2. rewrite E2. rewrite <- app_assoc. rewrite firstn_app_exact, skipn_app_exact by reflexivity.
  rewrite P1. 
  destruct (read_n_ok (List.length body) (mkIfd (body ++ rest) s2)) as (s3 & E3 & Hs3); [exact Hs2| |].
  { cbn [in_rest]. rewrite !app_length. lia. }
  cbn [in_rest] in E3. exists s2, s3, (body ++ rest). split; [reflexivity|]. split; [|exact Hs3].
  unfold read_blob. pose proof (blen_nonneg body). unfold limit in Hb. unfold max_uncompressed_blob_size.
  assert (G : ((blen body <? 0) || (blen body >? 33554432))%bool = false) by lia. rewrite G, to_nat_blen, E3.
  rewrite firstn_app_exact, skipn_app_exact by reflexivity. rewrite P2, (unpack_holds _ _ _ H). reflexivity.
Qed.

Lemma frame_length x fr : blob_bytes K x fr -> (4 <= List.length fr)%nat.
Proof. intros (n & head & body & b & -> & Hn & _). rewrite app_length. lia. Qed.

(** complete blobs, then whatever is in [tail] *)
Lemma read_frames bs fs : Forall2 (blob_bytes K) bs fs -> forall tail s fuel,
  reads_ok s -> (List.length (List.concat fs ++ tail) < fuel)%nat ->
  exists s' fuel', reads_ok s' /\ (List.length tail < fuel')%nat /\
    read_blobs_loop K fuel (mkIfd (List.concat fs ++ tail) s) =
    let (r, e) := read_blobs_loop K fuel' (mkIfd tail s') in (bs ++ r, e).
Proof.
  induction 1 as [|x fr bs fs Hx _ IH]; intros tail s fuel Hs Hf.
  - exists s, fuel. split; [exact Hs|]. split; [exact Hf|]. cbn [List.concat app]. destruct (read_blobs_loop K fuel _). reflexivity.
  - cbn [List.concat] in *. rewrite <- app_assoc in *. rewrite app_length in Hf. pose proof (frame_length _ _ Hx).
    destruct fuel as [|fuel]; [lia|].
    destruct (read_frame x fr (List.concat fs ++ tail) s Hx Hs) as (n & s1 & s2 & r1 & E1 & E2 & Hs2).
    destruct (IH tail s2 fuel Hs2 ltac:(lia)) as (s' & fuel' & A & B & C).
    exists s', fuel'. split; [exact A|]. split; [exact B|]. cbn [read_blobs_loop]. rewrite E1. cbn [bh_datasize bh_type]. rewrite E2, C.
    destruct (read_blobs_loop K fuel' _). destruct x. reflexivity.
Qed.

Lemma read_end tail s fuel : reads_ok s -> (List.length tail < 4)%nat -> (List.length tail < fuel)%nat ->
  read_blobs_loop K fuel (mkIfd tail s) = ([], Ok tt).
Proof.
  intros Hs Hl Hf. destruct fuel; [lia|]. cbn [read_blobs_loop]. unfold read_blob_header.
  destruct (read_n_short 4 (mkIfd tail s) Hs) as (f' & E); [cbn; lia|]. rewrite E. reflexivity.
Qed.

Lemma read_blobs_complete bs fs tail s : Forall2 (blob_bytes K) bs fs -> reads_ok s -> (List.length tail < 4)%nat ->
  read_blobs K (mkIfd (List.concat fs ++ tail) s) = (bs, Ok tt).
Proof.
  intros HF Hs Ht. unfold read_blobs. cbn [in_rest].
  destruct (read_frames bs fs HF tail s (S (List.length (List.concat fs ++ tail))) Hs ltac:(lia)) as (s' & fuel' & A & B & C).
  rewrite C, read_end by (auto; lia). rewrite app_nil_r. reflexivity.
Qed.

(** a blob cut off after its length *)
Lemma read_cut x part more s fuel : blob_bytes K x (part ++ more) -> more <> [] -> (4 <= List.length part)%nat -> reads_ok s ->
  (List.length part < fuel)%nat -> read_blobs_loop K fuel (mkIfd part s) = ([], Throw ERuntime).
Proof.
  intros (n & head & body & b & EQ & Hn & Hv & Hh & Hb & P1 & P2 & H) Hm Hp Hs Hf. destruct fuel as [|fuel]; [lia|].
  destruct (header_size n head Hn Hv Hh) as (a & b0 & c & d & -> & C1 & C2).
  assert (HL : List.length (part ++ more) = List.length ([a; b0; c; d] ++ head ++ body)) by (rewrite EQ; reflexivity).
  rewrite !app_length in HL. cbn [List.length] in HL.
  assert (Hml : (1 <= List.length more)%nat) by (destruct more; [congruence|cbn; lia]).
  cbn [read_blobs_loop]. unfold read_blob_header.
  destruct (read_n_ok 4 (mkIfd part s) Hs) as (s1 & E1 & Hs1); [cbn; lia|]. cbn [in_rest] in E1. rewrite E1.
  assert (F4 : firstn 4 part = [a; b0; c; d]).
  { transitivity (firstn 4 (part ++ more)); [|rewrite EQ; reflexivity]. rewrite firstn_app.
    replace (4 - List.length part)%nat with 0%nat by lia. rewrite firstn_O, app_nil_r. reflexivity. }
  assert (S4 : skipn 4 part ++ more = head ++ body).
  { transitivity (skipn 4 (part ++ more)); [|rewrite EQ; reflexivity]. rewrite skipn_app.
    replace (4 - List.length part)%nat with 0%nat by lia. reflexivity. }
  rewrite F4, C1, C2, to_nat_blen.
  assert (SL : List.length (skipn 4 part) = (List.length part - 4)%nat) by apply skipn_length.
  set (p := skipn 4 part) in *. destruct (Nat.lt_ge_cases (List.length p) (List.length head)) as [L|L].
  - destruct (read_n_short (List.length head) (mkIfd p s1) Hs1) as (f' & E2); [exact L|]. rewrite E2. reflexivity.
  - destruct (read_n_ok (List.length head) (mkIfd p s1) Hs1) as (s2 & E2 & Hs2); [exact L|]. cbn [in_rest] in E2. rewrite E2.
    assert (Fh : firstn (List.length head) p = head).
    { transitivity (firstn (List.length head) (p ++ more)); [|rewrite S4; apply firstn_app_exact; reflexivity]. rewrite firstn_app.
      replace (List.length head - List.length p)%nat with 0%nat by lia. rewrite firstn_O, app_nil_r. reflexivity. }
    rewrite Fh, P1. cbn [bh_datasize]. unfold read_blob. pose proof (blen_nonneg body). unfold limit in Hb. unfold max_uncompressed_blob_size.
    assert (G : ((blen body <? 0) || (blen body >? 33554432))%bool = false) by lia. rewrite G, to_nat_blen.
    assert (PL : List.length (p ++ more) = List.length (head ++ body)) by (rewrite S4; reflexivity). rewrite !app_length in PL.
    destruct (read_n_short (List.length body) (mkIfd (skipn (List.length head) p) s2) Hs2) as (f' & E3).
    { cbn [in_rest]. rewrite skipn_length. lia. }
    rewrite E3. reflexivity.
Qed.
Lemma read_blobs_cut bs fs x part more s : Forall2 (blob_bytes K) bs fs -> blob_bytes K x (part ++ more) -> more <> [] ->
  reads_ok s ->
  read_blobs K (mkIfd (List.concat fs ++ part) s) = (bs, if Nat.ltb (List.length part) 4 then Ok tt else Throw ERuntime).
Proof.
  intros HF Hx Hm Hs. destruct (Nat.ltb_spec (List.length part) 4) as [L|L]; [apply read_blobs_complete; assumption|].
  unfold read_blobs. cbn [in_rest].
  destruct (read_frames bs fs HF part s (S (List.length (List.concat fs ++ part))) Hs ltac:(lia)) as (s' & fuel' & A & B & C).
  rewrite C, (read_cut x part more) by auto. rewrite app_nil_r. reflexivity.
Qed.

(* ---- any bytes ---- *)
Lemma header_sound f f1 r : read_blob_header K f = (f1, r) ->
  match r with
  | Ok (Some h) => exists n head, in_rest f = n ++ head ++ in_rest f1 /\ List.length n = 4%nat /\ be_value n = blen head /\
                     blen head <= 65536 /\ par_bh K head = Some h
  | Ok None => (List.length (in_rest f) < 4)%nat
  | Throw e => e = ERuntime
  | _ => False
  end.
Proof.
  unfold read_blob_header. destruct (read_n 4 f) as [f0 r0] eqn:E. pose proof (read_n_spec _ _ _ _ E) as [_ Hr].
  destruct r0 as [n| | |]; [| | |tauto].
  - destruct Hr as (L & En & R0). assert (Ln : List.length n = 4%nat) by (rewrite En, firstn_length; lia).
    destruct (len4 n Ln) as (a & b & c & d & EQ). rewrite EQ in *. clear EQ.
    destruct (convert_eq a b c d) as (HR & HC1 & HC2). set (v := convert_from_network_byte_order a b c d) in *.
    destruct ((v >? max_blob_header_size) || (v <? 0))%bool eqn:G; [intros [= <- <-]; reflexivity|].
    unfold max_blob_header_size in G. assert (Hv : v = be_value [a; b; c; d]) by lia.
    destruct (read_n (Z.to_nat v) f0) as [f2 r2] eqn:E2. pose proof (read_n_spec _ _ _ _ E2) as [_ Hr2].
    destruct r2 as [h| | |]; [|intros [= <- <-]; reflexivity|intros [= <- <-]; reflexivity|tauto].
    destruct Hr2 as (L2 & Eh & R2). destruct (par_bh K h) as [x|] eqn:P; intros [= <- <-]; [|reflexivity].
    exists [a; b; c; d], h. split.
    + rewrite R2, Eh, R0. rewrite firstn_skipn. rewrite En at 1. rewrite firstn_skipn. reflexivity.
    + split; [reflexivity|]. assert (Lh : blen h = v) by (unfold blen; rewrite Eh, firstn_length; lia).
      split; [lia|]. split; [lia|exact P].
  - intros [= <- <-]. exact Hr.
  - intros [= <- <-]. reflexivity.
Qed.
Lemma blob_sound n f f1 r : (forall d b, par_blob K d = Some b -> in_i32 (b_raw_size b)) -> read_blob K n f = (f1, r) ->
  match r with
  | Ok d => exists body b, in_rest f = body ++ in_rest f1 /\ blen body = n /\ n <= limit /\ par_blob K body = Some b /\ holds K b d
  | Throw e => e = ERuntime
  | AssertFail => True
  | UB => False
  end.
Proof.
  intros HI. unfold read_blob. destruct ((n <? 0) || _)%bool eqn:G; [intros [= <- <-]; reflexivity|].
  destruct (read_n (Z.to_nat n) f) as [f2 r2] eqn:E2. pose proof (read_n_spec _ _ _ _ E2) as [_ Hr2].
  destruct r2 as [d| | |]; [|intros [= <- <-]; reflexivity|intros [= <- <-]; reflexivity|tauto].
  destruct Hr2 as (L2 & Eh & R2). destruct (par_blob K d) as [b|] eqn:P; intros [= <- <-]; [|reflexivity].
  destruct (unpack_blob K b) as [x|e| |] eqn:U; [|apply unpack_throw in U; exact U|exact (unpack_not_ub _ _ U)|exact I].
  exists d, b. split; [rewrite Eh, R2, firstn_skipn; reflexivity|]. unfold max_uncompressed_blob_size in G.
  split; [unfold blen; rewrite Eh, firstn_length; lia|]. split; [unfold limit; lia|]. split; [exact P|].
  apply unpack_sound; [exact (HI _ _ P)|exact U].
Qed.
Lemma read_blobs_sound_gen fuel : (forall d b, par_blob K d = Some b -> in_i32 (b_raw_size b)) -> forall f bs e,
  (List.length (in_rest f) < fuel)%nat -> read_blobs_loop K fuel f = (bs, e) ->
  exists fs rest, in_rest f = List.concat fs ++ rest /\ Forall2 (blob_bytes K) bs fs /\
    (e = Ok tt -> (List.length rest < 4)%nat) /\ (e = Ok tt \/ e = Throw ERuntime \/ e = AssertFail).
Proof.
  intros HI. induction fuel as [|fuel IH]; intros f bs e Hf E; [lia|]. cbn [read_blobs_loop] in E.
  destruct (read_blob_header K f) as [f1 r1] eqn:E1. pose proof (header_sound _ _ _ E1) as H1.
  destruct r1 as [[h|]|x| |]; [| | |tauto|tauto].
  - destruct H1 as (n & head & R1 & Ln & Hv & Hh & P1).
    destruct (read_blob K (bh_datasize h) f1) as [f2 r2] eqn:E2. pose proof (blob_sound _ _ _ _ HI E2) as H2.
    destruct r2 as [d|x| |]; [|subst x; injection E as <- <-|tauto|injection E as <- <-].
    + destruct H2 as (body & b & R2 & Lb & Lim & P2 & H).
      destruct (read_blobs_loop K fuel f2) as [r e'] eqn:E3. injection E as <- <-.
      destruct (IH f2 r e') as (fs & rest & R3 & HF & He); [|exact E3|].
      { rewrite R1, R2, !app_length in Hf. lia. }
      exists ((n ++ head ++ body) :: fs), rest. split.
      * cbn [List.concat]. rewrite R1, R2, R3, <- !app_assoc. reflexivity.
      * split; [|exact He]. constructor; [|exact HF]. exists n, head, body, b. cbn [fst snd].
        split; [reflexivity|]. repeat (split; try assumption); [lia|]. rewrite Lb. destruct h; exact P1.
    + exists [], (in_rest f). split; [reflexivity|]. split; [constructor|]. split; [discriminate|auto].
    + exists [], (in_rest f). split; [reflexivity|]. split; [constructor|]. split; [discriminate|auto].
  - injection E as <- <-. exists [], (in_rest f). split; [reflexivity|]. split; [constructor|]. split; [intros _; exact H1|auto].
  - subst x. injection E as <- <-. exists [], (in_rest f). split; [reflexivity|]. split; [constructor|]. split; [discriminate|auto].
Qed.
Lemma read_blobs_sound f bs e : codec_ok K -> read_blobs K f = (bs, e) ->
  exists fs rest, in_rest f = List.concat fs ++ rest /\ Forall2 (blob_bytes K) bs fs /\
    (e = Ok tt -> (List.length rest < 4)%nat) /\ (e = Ok tt \/ e = Throw ERuntime \/ e = AssertFail).
Proof. intros HK. apply read_blobs_sound_gen; [apply (ok_raw_size K HK)|lia]. Qed.

(* ---- writing ---- *)
Lemma sys_write_complete d f : writes_complete (fd_sched f) ->
  exists s', sys_write d f = Ok (mkOfd (fd_out f ++ d) s') /\ writes_complete s'.
Proof.
  intros H. unfold sys_write. destruct (fd_sched f) as [|w r]; [exists []; split; [reflexivity|constructor]|].
  inversion H; subst. eexists; split; [reflexivity|assumption].
Qed.
(** what store_blob writes *)
Definition blob_message (compress : bool) (d : bytes) : outcome blob :=
  if compress then let! z := zlib_compress K d in Ok (mkBlob None (to_i32 (blen d)) (Some z) None)
  else Ok (mkBlob (Some d) (to_i32 (blen d)) None None).
Definition frame (t : string) (b : blob) : bytes :=
  let out := ser_blob K b in let head := ser_bh K (mkBH t (to_i32 (blen out))) in be32 (to_u32 (blen head)) ++ head ++ out.
Lemma store_blob_complete compress t d f : writes_complete (fd_sched f) ->
  exists s', writes_complete s' /\
    store_blob K compress t d f = let! b := blob_message compress d in Ok (mkOfd (fd_out f ++ frame t b) s').
Proof.
  intros H. unfold store_blob, blob_message. set (m := if compress then _ else _).
  destruct m as [b|e| |]; cbn [obind]; [|exists []; split; [constructor|reflexivity]..].
  set (out := ser_blob K b). set (head := ser_bh K _).
  destruct (sys_write_complete (be32 (to_u32 (blen head))) f H) as (s1 & E1 & H1). rewrite E1. cbn [obind].
  destruct (sys_write_complete head (mkOfd (fd_out f ++ be32 (to_u32 (blen head))) s1) H1) as (s2 & E2 & H2). rewrite E2. cbn [obind].
  destruct (sys_write_complete out (mkOfd (fd_out (mkOfd (fd_out f ++ be32 (to_u32 (blen head))) s1) ++ head) s2) H2) as (s3 & E3 & H3).
  rewrite E3. exists s3. split; [exact H3|]. cbn [fd_out]. unfold frame. fold out. fold head. rewrite <- !app_assoc. reflexivity.
Qed.
Lemma to_i32_small n : 0 <= n <= limit -> to_i32 n = n.
Proof. unfold to_i32, limit. lia. Qed.
Lemma frame_ok compress t d b : codec_ok K -> slen t <= 1000 -> small K compress d -> blob_message compress d = Ok b ->
  blob_bytes K (t, d) (frame t b).
Proof.
  intros HK Ht [Hd Hs] Hb. pose proof (blen_nonneg d). pose proof (to_i32_small (blen d) ltac:(lia)) as Ed.
  assert (HB : blen (ser_blob K b) <= limit /\ in_i32 (b_raw_size b) /\ holds K b d).
  { unfold blob_message in Hb. rewrite Ed in Hb. destruct compress.
    - unfold zlib_compress in Hb. destruct (_ >? _); cbn [obind] in Hb; [discriminate|]. injection Hb as <-. destruct Hs as [Hz Hs].
      split; [exact Hs|]. split; [cbn; unfold in_i32, int32_min, int32_max, limit in *; lia|].
      right. split; [reflexivity|]. exists (zdeflate K d). split; [reflexivity|]. split; [apply (ok_zlib K HK); lia|]. split; [reflexivity|exact Hd].
    - injection Hb as <-. split; [exact Hs|]. split; [cbn; unfold in_i32, int32_min, int32_max, limit in *; lia|]. left; reflexivity. }
  destruct HB as (HB & HR & HH). unfold frame. pose proof (blen_nonneg (ser_blob K b)).
  rewrite (to_i32_small (blen (ser_blob K b))) by lia.
  set (out := ser_blob K b) in *. assert (Hout : in_i32 (blen out)) by (unfold in_i32, int32_min, int32_max, limit in *; lia).
  pose proof (ok_bh_small K HK t (blen out) Ht Hout) as Hh. pose proof (ok_bh K HK t (blen out) Hout Hh) as Ph.
  set (head := ser_bh K (mkBH t (blen out))) in *. pose proof (blen_nonneg head).
  assert (Eu : to_u32 (blen head) = blen head) by (unfold to_u32; lia). rewrite Eu.
  exists (be32 (blen head)), head, out, b. split; [reflexivity|]. split; [reflexivity|]. split; [apply be_value_be32; lia|].
  split; [exact Hh|]. split; [exact HB|]. split; [exact Ph|]. split; [apply (ok_blob K HK); assumption|exact HH].
Qed.

Lemma store_all_frames compress bs : forall f f', writes_complete (fd_sched f) -> store_all K compress bs f = Ok f' ->
  exists ms, Forall2 (fun x b => blob_message compress (snd x) = Ok b) bs ms /\ writes_complete (fd_sched f') /\
    fd_out f' = fd_out f ++ List.concat (map (fun xb => frame (fst (fst xb)) (snd xb)) (combine bs ms)).
Proof.
  induction bs as [|[t d] bs IH]; intros f f' Hw E.
  - injection E as <-. exists []. split; [constructor|]. split; [exact Hw|]. cbn. rewrite app_nil_r. reflexivity.
  - cbn [store_all] in E. destruct (store_blob_complete compress t d f Hw) as (s' & Hs' & ES). rewrite ES in E.
    destruct (blob_message compress d) as [b|e| |] eqn:EB; cbn [obind] in E; try discriminate.
    apply IH in E; [|exact Hs']. destruct E as (ms & HF & HW & HO). exists (b :: ms). split; [constructor; assumption|].
    split; [exact HW|]. rewrite HO. cbn [fd_out combine map List.concat fst snd]. rewrite <- app_assoc. reflexivity.
Qed.
Lemma store_all_read compress bs f f' : codec_ok K -> writes_complete (fd_sched f) ->
  Forall (fun x => slen (fst x) <= 1000 /\ small K compress (snd x)) bs -> store_all K compress bs f = Ok f' ->
  exists fs, fd_out f' = fd_out f ++ List.concat fs /\ Forall2 (blob_bytes K) bs fs.
Proof.
  intros HK Hw HA E. destruct (store_all_frames compress bs f f' Hw E) as (ms & HF & _ & HO).
  exists (map (fun xb => frame (fst (fst xb)) (snd xb)) (combine bs ms)). split; [exact HO|]. clear E HO.
  induction HF as [|[t d] b bs ms Hb HF IH]; cbn; [constructor|]. inversion HA as [|? ? [H1 H2] H3]; subst. constructor.
  - cbn [fst snd] in *. apply (frame_ok compress); assumption.
  - apply IH. assumption.
Qed.
(** nothing keeps small blobs from being written *)
Lemma store_all_ok compress bs : forall f, writes_complete (fd_sched f) ->
  Forall (fun x => small K compress (snd x)) bs -> exists f', store_all K compress bs f = Ok f'.
Proof.
  induction bs as [|[t d] bs IH]; intros f Hw HA; [eexists; reflexivity|]. inversion HA as [|? ? [H1 H2] H3]; subst.
  cbn [store_all]. destruct (store_blob_complete compress t d f Hw) as (s' & Hs' & ES). rewrite ES. cbn [snd] in *.
  assert (EB : exists b, blob_message compress d = Ok b).
  { unfold blob_message. destruct compress; [|eexists; reflexivity]. unfold zlib_compress.
    destruct (_ >? _) eqn:G; [|eexists; reflexivity]. unfold max_uncompressed_blob_size, limit in *. lia. }
  destruct EB as (b & EB). rewrite EB. cbn [obind]. apply IH; [exact Hs'|exact H3].
Qed.
Lemma store_all_app compress a : forall b f, store_all K compress (a ++ b) f = let! f1 := store_all K compress a f in store_all K compress b f1.
Proof.
  induction a as [|[t d] a IH]; intros b f; [reflexivity|]. cbn [app store_all]. destruct (store_blob K compress t d f); cbn [obind]; auto.
Qed.
(** the schedule does not matter if all writes are complete *)
Lemma store_all_sched compress bs : forall f f' s, writes_complete (fd_sched f) -> writes_complete s -> store_all K compress bs f = Ok f' ->
  exists s', store_all K compress bs (mkOfd (fd_out f) s) = Ok (mkOfd (fd_out f') s').
Proof.
  induction bs as [|[t d] bs IH]; intros f f' s Hw Hs E.
  - injection E as <-. exists s. reflexivity.
  - cbn [store_all] in *. destruct (store_blob_complete compress t d f Hw) as (s1 & Hs1 & ES1). rewrite ES1 in E.
    destruct (store_blob_complete compress t d (mkOfd (fd_out f) s) Hs) as (s2 & Hs2 & ES2). rewrite ES2.
    destruct (blob_message compress d) as [b|e| |]; cbn [obind] in *; try discriminate. cbn [fd_out] in *.
    apply (IH _ f' s2) in E; assumption.
Qed.
Lemma store_blob_nil compress t d o f' : store_blob K compress t d (mkOfd o []) = Ok f' -> fd_sched f' = [].
Proof.
  unfold store_blob. destruct (if compress then _ else _) as [b|e| |]; cbn [obind]; try discriminate. 
  unfold sys_write. cbn [fd_sched fd_out obind]. intros [= <-]. reflexivity.
Qed.
Lemma store_all_nil compress bs : forall o f', store_all K compress bs (mkOfd o []) = Ok f' -> fd_sched f' = [].
Proof.
  induction bs as [|[t d] bs IH]; intros o f' E; [injection E as <-; reflexivity|]. cbn [store_all] in E.
  destruct (store_blob K compress t d (mkOfd o [])) as [f1|e| |] eqn:E1; cbn [obind] in E; try discriminate.
  pose proof (store_blob_nil _ _ _ _ _ E1) as H. destruct f1 as [o1 s1]. cbn in H. subst s1. apply IH in E. exact E.
Qed.
End Frames.

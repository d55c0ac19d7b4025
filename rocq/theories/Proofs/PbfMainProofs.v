(** The theorems about PBF files. *)
From Verif Require Import Base.Prelude Base.SMap Model.Osm Model.Float Model.Utils Model.Attr Model.OsmFile Model.Handler Model.Pbf
  Spec.UtilsSpec Spec.TagsSpec Spec.HandlerSpec Spec.PbfSpec Proofs.UtilsProofs Proofs.PbfFloatProofs Proofs.PbfFrameProofs Proofs.PbfStringProofs
  Proofs.PbfDecodeProofs Proofs.PbfWriteProofs Proofs.PbfBlockProofs Proofs.PbfProofs Proofs.PbfSuccessProofs.
Require Import Reals Lra.
Local Open Scope Z_scope.

Lemma layout_of K c h ps sched f : writes_complete sched ->
  store_all K (cf_compress c) (("OSMHeader"%string, h) :: data ps) (mkOfd [] sched) = Ok f -> layout K c h ps (fd_out f).
Proof.
  intros HW E. destruct (fun H => store_all_sched K _ _ (mkOfd [] sched) f [] HW H E) as (s' & E'); [constructor|]. cbn [fd_out] in E'.
  pose proof (store_all_nil K _ _ _ _ E') as N. cbn in N. subst s'. exact E'.
Qed.
Lemma pieces_length {A B} (R : A -> B -> Prop) a b : Forall2 R a b -> List.length b = List.length a.
Proof. induction 1; cbn; congruence. Qed.

(* ---- default granularity ---- *)
Section Default.
Variables (K : codec) (c : pcfg).
Hypothesis HK : codec_ok K.
Hypothesis HG : default_gran c.
Definition T53 (t : Z) : Prop := Z.abs t <= 9007199254740992.
Notation idZ := (fun x : Z => x).
Lemma d_WC x : in_i32 x -> lonlat2int (cf_gran c) (fix_to_double x) = Ok (idZ x).
Proof. rewrite (proj1 HG). apply lonlat2int_100. Qed.
Lemma d_WT t : T53 t -> timestamp2int (cf_dgran c) t = Ok (idZ t).
Proof. rewrite (proj2 HG). apply timestamp2int_1000. Qed.
Lemma d_HC x : in_i32 x -> exists y, decode_coord (idZ x) (to_i32 (cf_gran c)) 0 = Ok y /\ to_i32 y = idZ x.
Proof.
  intros H. rewrite (proj1 HG). change (to_i32 100) with 100. exists x. unfold decode_coord.
  unfold in_i32, int32_min, int32_max in H.
  rewrite i64_ok by (unfold in_i64, int64_min, int64_max; lia). cbn [obind].
  rewrite i64_ok by (unfold in_i64, int64_min, int64_max; lia). cbn [obind].
  change (lonlat_resolution / coordinate_precision) with 100. rewrite Z.add_0_r, Z.quot_mul by lia. split; [reflexivity|].
  apply to_i32_id. unfold in_i32, int32_min, int32_max. lia.
Qed.
Lemma d_HT t : T53 t -> i64 (idZ t * Z.quot (to_i32 (cf_dgran c)) 1000) = Ok (idZ t).
Proof.
  unfold T53. intros H. rewrite (proj2 HG). change (Z.quot (to_i32 1000) 1000) with 1. rewrite Z.mul_1_r.
  apply i64_ok. unfold in_i64, int64_min, int64_max. lia.
Qed.
Lemma d_BE x : in_i32 x -> mid (idZ x).
Proof. unfold in_i32, int32_min, int32_max, mid. lia. Qed.
Lemma d_BT t : T53 t -> mid (idZ t).
Proof. unfold T53, mid. lia. Qed.
Lemma fine_default os : Forall object_ok os -> Forall (obj_fine T53) os.
Proof.
  intros H. eapply Forall_impl; [|exact H]. intros o Ho. split; [exact Ho|]. destruct Ho as [(_ & _ & _ & Ht & _) _]. exact Ht.
Qed.
Lemma kept_default o : kept_with c idZ idZ o = kept c o.
Proof. reflexivity. Qed.

Lemma roundtrip m os sched file : Forall object_ok os -> few_texts os -> writes_complete sched -> write_pbf K c m os sched = Ok file ->
  exists h hb chunks ps, header_of c m = Ok hb /\ h = ser_hb K hb /\ pieces os chunks /\ List.length ps = List.length chunks /\ layout K c h ps file /\
    (readable K c h ps -> forall s, reads_ok s -> exists m', parse_header (cf_type c) hb meta_new = Ok m' /\
       read_pbf K (cf_type c) (mkIfd file s) = mkPRd (flat_map (fun ch => by_kind (map (kept c) ch)) chunks) m' (Ok tt)).
Proof.
  intros HO FT HW E.
  destruct (write_gen K c idZ idZ idZ idZ T53 HK d_WC d_WT d_HC d_HT) with (3 := fine_default os HO) (4 := FT) (5 := E)
    as (hb & chunks & ps & f & EH & EC & HP & HB & ES & EF).
  - intros x Hx. apply mid_i64, d_BE, Hx.
  - intros x Hx. apply mid_i64, d_BT, Hx.
  - exists (ser_hb K hb), hb, chunks, ps. split; [exact EH|]. split; [reflexivity|]. split; [split; assumption|]. split; [eapply pieces_length; exact HB|].
    subst file. split; [eapply layout_of; eassumption|]. intros [R1 R2] s RS.
    exact (read_gen K c idZ idZ idZ idZ T53 HK d_WC d_WT d_HC d_HT (fun x H => mid_i64 _ (d_BE x H)) (fun t H => mid_i64 _ (d_BT t H)) m hb chunks ps f sched s EH HB HW ES R1 R2 RS).
Qed.
Lemma write_ok m os sched hb : header_of c m = Ok hb -> Forall object_ok os -> Forall near_ids os -> Forall known_members os -> few_texts os ->
  writes_complete sched ->
  (exists file, write_pbf K c m os sched = Ok file) \/
  (cf_compress c = true /\ write_pbf K c m os sched = Throw ERuntime /\
   (limit < blen (zdeflate K (ser_hb K hb)) \/ too_big_piece K c idZ idZ idZ idZ os)).
Proof.
  intros EH HO HN HM FT HW. 
  exact (write_succ K c idZ idZ idZ idZ T53 HK d_WC d_WT d_HC d_HT d_BE d_BT m os sched hb EH (fine_default os HO) HN HM FT HW).
Qed.
End Default.

(* ---- any granularity ---- *)
Section Gran.
Variables (K : codec) (c : pcfg).
Hypothesis HK : codec_ok K.
Hypothesis HG : gran_ok (cf_gran c).
Hypothesis HD : gran_ok (cf_dgran c).
Definition T36 (t : Z) : Prop := Z.abs t <= 68719476736.
Definition ok_or (x : outcome Z) : Z := match x with Ok n => n | _ => 0 end.
Definition ecg (x : Z) : Z := ok_or (lonlat2int (cf_gran c) (fix_to_double x)).
Definition etg (t : Z) : Z := ok_or (timestamp2int (cf_dgran c) t).
Definition fcg (x : Z) : Z := to_i32 (Z.quot (ecg x * cf_gran c) 100).
Definition ftg (t : Z) : Z := etg t * Z.quot (cf_dgran c) 1000.

(** from the reals to the integers *)
Lemma near_mul n a g (e1 e2 : Z) : 1 <= g -> 0 < e2 -> (Rabs (IZR n - IZR a / IZR g) <= IZR e1 / IZR e2)%R -> e2 * Z.abs (n * g - a) <= e1 * g.
Proof.
  intros Hg He H. assert (G : (0 < IZR g)%R) by (apply IZR_lt; lia). assert (E2 : (0 < IZR e2)%R) by (apply IZR_lt; lia).
  apply le_IZR. rewrite !mult_IZR, abs_IZR, minus_IZR, mult_IZR.
  replace (IZR n * IZR g - IZR a)%R with ((IZR n - IZR a / IZR g) * IZR g)%R by (field; lra).
  rewrite Rabs_mult, (Rabs_pos_eq (IZR g)) by lra.
  apply (Rmult_le_compat_r (IZR g * IZR e2)) in H; [|apply Rmult_le_pos; lra].
  replace (IZR e1 / IZR e2 * (IZR g * IZR e2))%R with (IZR e1 * IZR g)%R in H by (field; lra). lra.
Qed.
Lemma ecg_spec x : in_i32 x -> lonlat2int (cf_gran c) (fix_to_double x) = Ok (ecg x) /\
  1000 * Z.abs (ecg x * cf_gran c - 100 * x) <= 501 * cf_gran c /\ Z.abs (ecg x) <= 214748364801.
Proof.
  intros Hx. destruct (lonlat2int_near x (cf_gran c) Hx HG) as (n & E & H & B). unfold ecg. rewrite E. cbn [ok_or].
  split; [reflexivity|]. split; [|exact B]. apply near_mul; [apply HG|lia|]. replace (501 / 1000)%R with (/ 2 + / 1000)%R by field. exact H.
Qed.
Lemma ecg_exact x : in_i32 x -> (100 * x) mod cf_gran c = 0 -> ecg x * cf_gran c = 100 * x.
Proof.
  intros Hx Hm. unfold ecg. rewrite (lonlat2int_exact x _ Hx HG Hm). cbn [ok_or]. pose proof (Z_div_mod_eq_full (100 * x) (cf_gran c)). unfold gran_ok in HG. lia.
Qed.
Lemma etg_spec t : T36 t -> timestamp2int (cf_dgran c) t = Ok (etg t) /\
  10 * Z.abs (etg t * cf_dgran c - 1000 * t) <= 6 * cf_dgran c /\ Z.abs (etg t) <= 68719476736001 /\
  ((1000 * t) mod cf_dgran c = 0 -> etg t * cf_dgran c = 1000 * t).
Proof.
  intros Ht. destruct (timestamp2int_near t (cf_dgran c) Ht HD) as (n & E & H & B & X). unfold etg. rewrite E. cbn [ok_or].
  split; [reflexivity|]. split; [|split; [exact B|]].
  - apply near_mul; [apply HD|lia|]. replace (6 / 10)%R with (/ 2 + / 10)%R by field. exact H.
  - intros Hm. rewrite (X Hm). pose proof (Z_div_mod_eq_full (1000 * t) (cf_dgran c)). unfold gran_ok in HD. lia.
Qed.
Lemma gran_i32 g : gran_ok g -> to_i32 g = g.
Proof. intros H. unfold gran_ok in H. apply to_i32_id. unfold in_i32, int32_min, int32_max. lia. Qed.
Lemma g_HC x : in_i32 x -> exists y, decode_coord (ecg x) (to_i32 (cf_gran c)) 0 = Ok y /\ to_i32 y = fcg x.
Proof.
  intros Hx. destruct (ecg_spec x Hx) as (_ & H & _). rewrite (gran_i32 _ HG). unfold decode_coord, fcg.
  unfold in_i32, int32_min, int32_max in Hx. unfold gran_ok in HG.
  rewrite i64_ok by (unfold in_i64, int64_min, int64_max; lia). cbn [obind].
  rewrite i64_ok by (unfold in_i64, int64_min, int64_max; lia). cbn [obind]. rewrite Z.add_0_r. eexists. split; reflexivity.
Qed.
Lemma g_HT t : T36 t -> i64 (etg t * Z.quot (to_i32 (cf_dgran c)) 1000) = Ok (ftg t).
Proof.
  intros Ht. destruct (etg_spec t Ht) as (_ & H & _). rewrite (gran_i32 _ HD). unfold ftg. apply i64_ok.
  unfold gran_ok in HD. unfold T36 in Ht. rewrite Z.quot_div_nonneg by lia.
  set (k := cf_dgran c / 1000). assert (Hk : 0 <= 1000 * k <= cf_dgran c) by (unfold k; lia).
  assert (A : Z.abs (etg t * cf_dgran c) <= 1000 * 68719476736 + cf_dgran c) by lia.
  assert (B : Z.abs (etg t * k) <= Z.abs (etg t * cf_dgran c)).
  { rewrite !Z.abs_mul. apply Z.mul_le_mono_nonneg_l; lia. }
  unfold in_i64, int64_min, int64_max. lia.
Qed.
Lemma g_BE x : in_i32 x -> mid (ecg x).
Proof. intros Hx. destruct (ecg_spec x Hx) as (_ & _ & H). unfold mid. lia. Qed.
Lemma g_BT t : T36 t -> mid (etg t).
Proof. intros Ht. destruct (etg_spec t Ht) as (_ & _ & H & _). unfold mid. lia. Qed.

Lemma coord_near_ok x : Z.abs x <= 1800000000 -> coord_near (cf_gran c) x (fcg x).
Proof.
  intros Hx. assert (Hi : in_i32 x) by (unfold in_i32, int32_min, int32_max; lia). destruct (ecg_spec x Hi) as (_ & H & _).
  unfold fcg, coord_near. set (g := cf_gran c) in *. set (p := ecg x * g) in *. unfold gran_ok in HG. fold g in HG.
  assert (Q : Z.abs (100 * Z.quot p 100 - p) <= 99) by (pose proof (Z.quot_rem' p 100); pose proof (Z.rem_bound_abs p 100); lia).
  rewrite to_i32_id by (unfold in_i32, int32_min, int32_max; lia). split; [lia|]. split.
  - intros Hm. assert (E : 100 * Z.quot p 100 = p).
    { assert (Z.rem p 100 = 0); [|pose proof (Z.quot_rem' p 100); lia].
      apply Z.rem_divide; [lia|]. unfold p. apply Z.divide_mul_r. apply Z.mod_divide; [lia|exact Hm]. }
    rewrite E. exact H.
  - intros Hm. pose proof (ecg_exact x Hi Hm) as E. unfold p, g. rewrite E. rewrite Z.mul_comm. apply Z.quot_mul. lia.
Qed.
Lemma time_near_ok t : T36 t -> time_near (cf_dgran c) t (ftg t).
Proof.
  intros Ht Hm. destruct (etg_spec t Ht) as (_ & H & _ & X). unfold gran_ok in HD. unfold ftg. rewrite Z.quot_div_nonneg by lia.
  set (g := cf_dgran c) in *. assert (Eg : g = 1000 * (g / 1000)) by (pose proof (Z_div_mod_eq_full g 1000); lia).
  set (k := g / 1000) in *. assert (E : etg t * g = 1000 * (etg t * k)) by (rewrite Eg at 1; ring).
  rewrite E in H, X. split; [lia|]. intros Hx. specialize (X Hx). lia.
Qed.

Lemma roundtrip_gran m os sched file : Forall object_ok os -> Forall (fun o => T36 (o_timestamp (obj_attrs o))) os ->
  few_texts os -> writes_complete sched -> write_pbf K c m os sched = Ok file ->
  exists h hb chunks ps, header_of c m = Ok hb /\ h = ser_hb K hb /\ pieces os chunks /\ List.length ps = List.length chunks /\ layout K c h ps file /\
    (readable K c h ps -> forall s, reads_ok s -> exists m', parse_header (cf_type c) hb meta_new = Ok m' /\
       read_pbf K (cf_type c) (mkIfd file s) = mkPRd (flat_map (fun ch => by_kind (map (kept_with c fcg ftg) ch)) chunks) m' (Ok tt)).
Proof.
  intros HO HT36 FT HW E.
  assert (HA : Forall (obj_fine T36) os).
  { rewrite Forall_forall in *. intros o Ho. split; auto. }
  destruct (write_gen K c ecg etg fcg ftg T36 HK (fun x H => proj1 (ecg_spec x H)) (fun t H => proj1 (etg_spec t H)) g_HC g_HT) with (3 := HA) (4 := FT) (5 := E)
    as (hb & chunks & ps & f & EH & EC & HP & HB & ES & EF).
  - intros x Hx. apply mid_i64, g_BE, Hx.
  - intros x Hx. apply mid_i64, g_BT, Hx.
  - exists (ser_hb K hb), hb, chunks, ps. split; [exact EH|]. split; [reflexivity|]. split; [split; assumption|]. split; [eapply pieces_length; exact HB|].
    subst file. split; [eapply layout_of; eassumption|]. intros [R1 R2] s RS.
    exact (read_gen K c ecg etg fcg ftg T36 HK (fun x H => proj1 (ecg_spec x H)) (fun t H => proj1 (etg_spec t H)) g_HC g_HT (fun x H => mid_i64 _ (g_BE x H)) (fun t H => mid_i64 _ (g_BT t H)) m hb chunks ps f sched s EH HB HW ES R1 R2 RS).
Qed.
Lemma time_lost t : cf_dgran c < 1000 -> ftg t = 0.
Proof. intros H. unfold ftg. unfold gran_ok in HD. rewrite Z.quot_small by lia. apply Z.mul_0_r. Qed.
End Gran.

(* ---- the header ---- *)
Lemma check_features_spec fs : forall hist,
  match check_features fs hist with
  | Some b => Forall known_feature fs /\ (b = true <-> hist = true \/ In "HistoricalInformation"%string fs)
  | None => exists f, In f fs /\ ~ known_feature f
  end.
Proof.
  induction fs as [|f fs IH]; intros hist; cbn [check_features].
  - split; [constructor|]. cbn. intuition.
  - destruct (String.eqb_spec f "OsmSchema-V0.6") as [->|N1].
    { specialize (IH hist). destruct (check_features fs hist).
      - destruct IH as [A B]. split; [constructor; [left; reflexivity|exact A]|]. rewrite B. cbn. intuition discriminate.
      - destruct IH as (x & A & B). exists x. split; [right; exact A|exact B]. }
    destruct (String.eqb_spec f "DenseNodes") as [->|N2].
    { specialize (IH hist). destruct (check_features fs hist).
      - destruct IH as [A B]. split; [constructor; [right; left; reflexivity|exact A]|]. rewrite B. cbn. intuition discriminate.
      - destruct IH as (x & A & B). exists x. split; [right; exact A|exact B]. }
    destruct (String.eqb_spec f "HistoricalInformation") as [->|N3].
    { specialize (IH true). destruct (check_features fs true).
      - destruct IH as [A B]. split; [constructor; [right; right; reflexivity|exact A]|]. rewrite B. cbn. intuition.
      - destruct IH as (x & A & B). exists x. split; [right; exact A|exact B]. }
    exists f. split; [left; reflexivity|]. unfold known_feature. tauto.
Qed.
Lemma parse_header_spec ty h m :
  match parse_header ty h m with
  | Ok _ => Forall known_feature (hb_features h) /\ type_accepted ty (hb_features h)
  | Throw ERuntime => ~ Forall known_feature (hb_features h)
  | Throw (EOther 2) => ty = FtOSM /\ In "HistoricalInformation"%string (hb_features h)
  | Throw (EOther 3) => ty = FtHistory /\ ~ In "HistoricalInformation"%string (hb_features h)
  | _ => False
  end.
Proof.
  unfold parse_header. pose proof (check_features_spec (hb_features h) false) as C. destruct (check_features _ false) as [b|].
  - destruct C as [A B]. destruct b.
    + assert (I : In "HistoricalInformation"%string (hb_features h)) by (destruct (proj1 B eq_refl); [discriminate|assumption]).
      destruct ty; cbn; auto.
    + assert (I : ~ In "HistoricalInformation"%string (hb_features h)) by (intros I; discriminate (proj2 B (or_intror I))).
      destruct ty; cbn; auto.
  - destruct C as (f & A & B). intros H. rewrite Forall_forall in H. apply B, H, A.
Qed.
Lemma read_header K ty d h bs fs s : Forall2 (blob_bytes K) (("OSMHeader"%string, d) :: bs) fs -> par_hb K d = Some h -> reads_ok s ->
  read_pbf K ty (mkIfd (List.concat fs) s) =
    match parse_header ty h meta_new with
    | Ok m' => parse_blobs K ty bs (Ok tt) m'
    | Throw e => mkPRd [] meta_new (Throw e)
    | UB => mkPRd [] meta_new UB
    | AssertFail => mkPRd [] meta_new AssertFail
    end.
Proof.
  intros HB HP RS. unfold read_pbf. rewrite <- (app_nil_r (List.concat fs)), (read_blobs_complete K _ fs [] s HB RS ltac:(cbn; lia)).
  cbn [parse_blobs]. change (String.eqb "OSMHeader" "OSMData") with false. change (String.eqb "OSMHeader" "OSMHeader") with true. cbv iota.
  rewrite HP. reflexivity.
Qed.
Lemma header_checked K ty d h bs fs s : Forall2 (blob_bytes K) (("OSMHeader"%string, d) :: bs) fs -> par_hb K d = Some h -> reads_ok s ->
  ~ (Forall known_feature (hb_features h) /\ type_accepted ty (hb_features h)) ->
  let r := read_pbf K ty (mkIfd (List.concat fs) s) in
  pr_groups r = [] /\
  pr_end r = Throw (if forallb (fun f => String.eqb f "OsmSchema-V0.6" || String.eqb f "DenseNodes" || String.eqb f "HistoricalInformation")%bool (hb_features h)
                    then EOther (if ft_eqb ty FtOSM then 2 else 3) else ERuntime).
Proof.
  intros HB HP RS HN. cbv zeta. rewrite (read_header K ty d h bs fs s HB HP RS). pose proof (parse_header_spec ty h meta_new) as S.
  set (kf := fun f => (String.eqb f "OsmSchema-V0.6" || String.eqb f "DenseNodes" || String.eqb f "HistoricalInformation")%bool).
  assert (KF : forallb kf (hb_features h) = true <-> Forall known_feature (hb_features h)).
  { rewrite forallb_forall, Forall_forall. unfold kf, known_feature. split; intros H f Hf; specialize (H f Hf).
    - rewrite !orb_true_iff, !String.eqb_eq in H. tauto.
    - rewrite !orb_true_iff, !String.eqb_eq. tauto. }
  destruct (parse_header ty h meta_new) as [m'|e| |] eqn:EP; try contradiction.
  cbn [pr_groups pr_end]. split; [reflexivity|]. 
  assert (EK : forallb kf (hb_features h) = match e with ERuntime => false | _ => true end).
  { unfold parse_header in EP. pose proof (check_features_spec (hb_features h) false) as C. destruct (check_features _ false) as [b|].
    - apply proj1, KF in C. rewrite C. destruct b, ty; cbn in EP; try discriminate; injection EP as <-; reflexivity.
    - injection EP as <-. destruct (forallb kf (hb_features h)) eqn:E; [|reflexivity]. exfalso. exact (S (proj1 KF eq_refl)). }
  rewrite EK. unfold parse_header in EP. destruct (check_features _ false) as [b|]; [|injection EP as <-; reflexivity].
  destruct b, ty; cbn in EP; try discriminate; injection EP as <-; reflexivity.
Qed.

(** the bounding box *)
Lemma quot_almost n x : in_i32 x -> Z.abs (n - 100 * x) <= 1 -> Z.abs n <= Z.abs (100 * x) -> almost x (Z.quot n 100).
Proof.
  intros Hx H1 H2. unfold almost. destruct (Z_lt_ge_dec n 0) as [L|L].
  - assert (E : Z.quot n 100 = - ((- n) / 100)) by (rewrite <- (Z.opp_involutive n) at 1; rewrite Z.quot_opp_l, Z.quot_div_nonneg by lia; reflexivity).
    rewrite E. lia.
  - rewrite Z.quot_div_nonneg by lia. lia.
Qed.

Definition rx (x : Z) : Z := Z.quot (ok_or (d_to_i64 (d_mul (fix_to_double x) (d_of_Z lonlat_resolution)))) 100.
Lemma rx_almost x : in_i32 x -> almost x (rx x).
Proof.
  intros Hx. destruct (header_coord x Hx) as (n & E & H1 & H2). unfold rx. rewrite E. cbn [ok_or]. apply quot_almost; [exact Hx|exact H1|].
  destruct (Z_lt_ge_dec x 0); lia.
Qed.
Lemma rx_mono x y : in_i32 x -> in_i32 y -> x <= y -> rx x <= rx y.
Proof.
  intros Hx Hy H. pose proof (rx_almost x Hx) as A. pose proof (rx_almost y Hy) as B. unfold almost in *.
  destruct (Z.eq_dec x y) as [->|N]; [lia|]. lia.
Qed.
Lemma rx_i32 x : in_i32 x -> x <> invalid_coord -> in_i32 (rx x) /\ rx x <> invalid_coord.
Proof.
  intros Hx N. pose proof (rx_almost x Hx) as A. unfold almost, in_i32, int32_min, int32_max, invalid_coord in *. unfold int32_max in *. lia.
Qed.
Lemma header_coord_ok x : in_i32 x -> d_to_i64 (d_mul (fix_to_double x) (d_of_Z lonlat_resolution)) = Ok (ok_or (d_to_i64 (d_mul (fix_to_double x) (d_of_Z lonlat_resolution)))).
Proof. intros Hx. destruct (header_coord x Hx) as (n & E & _). rewrite E. reflexivity. Qed.
Lemma header_of_ok c m : bounds_defined (mt_bounds m) = false \/ bounds_ok (mt_bounds m) -> exists hb, header_of c m = Ok hb.
Proof.
  unfold header_of. cbv zeta. destruct (bounds_defined (mt_bounds m)); intros [H|H]; try discriminate; try (cbn [obind]; eauto; fail).
  destruct H as ((A1 & A2 & _) & (B1 & B2 & _) & _). unfold pos_lon, pos_lat.
  rewrite (header_coord_ok _ A1), (header_coord_ok _ A2), (header_coord_ok _ B1), (header_coord_ok _ B2). cbn [obind]. eauto.
Qed.
Lemma header_meta c m hb m' : header_of c m = Ok hb -> parse_header (cf_type c) hb meta_new = Ok m' ->
  mt_generator m' = cf_generator c /\
  (bounds_defined (mt_bounds m) = false -> mt_bounds m' = bounds_new) /\
  (bounds_ok (mt_bounds m) -> pos_almost (bottom_left (mt_bounds m)) (bottom_left (mt_bounds m')) /\
                              pos_almost (top_right (mt_bounds m)) (top_right (mt_bounds m'))).
Proof.
  intros E P. unfold parse_header in P. assert (EP : hb_program hb = Some (cf_generator c)).
  { unfold header_of in E. destruct (if bounds_defined _ then _ else _) as [bb|?| |]; cbn [obind] in E; try discriminate. injection E as <-. reflexivity. }
  assert (EM : m' = mkMeta (cf_generator c) (match hb_bbox hb with
                  | Some b => let c := lonlat_resolution / coordinate_precision in
                      bounds_extend (bounds_extend (mt_bounds meta_new) (pos_of_int64 (Z.quot (bb_left b) c) (Z.quot (bb_bottom b) c)))
                        (pos_of_int64 (Z.quot (bb_right b) c) (Z.quot (bb_top b) c))
                  | None => mt_bounds meta_new end)).
  { rewrite EP in P. destruct (check_features _ false) as [b|]; [|discriminate].
    destruct (ft_eqb (cf_type c) FtOSM && b)%bool; [discriminate|]. destruct (ft_eqb (cf_type c) FtHistory && negb b)%bool; [discriminate|].
    injection P as <-. reflexivity. }
  rewrite EM. cbn [mt_generator mt_bounds]. split; [reflexivity|]. split.
  - intros H. unfold header_of in E. rewrite H in E. cbn [obind] in E. injection E as <-. reflexivity.
  - intros ((A1 & A2 & A3 & A4) & (B1 & B2 & B3 & B4) & O1 & O2). unfold header_of in E. cbv zeta in E.
    destruct (bounds_defined (mt_bounds m)) eqn:BD.
    2:{ exfalso. unfold bounds_defined, pos_defined in BD. apply andb_false_iff in BD. rewrite !negb_false_iff, !Z.eqb_eq in BD. tauto. }
    unfold pos_lon, pos_lat in E. rewrite (header_coord_ok _ A1), (header_coord_ok _ A2), (header_coord_ok _ B1), (header_coord_ok _ B2) in E.
    cbn [obind] in E. injection E as <-. cbn [hb_bbox bb_left bb_right bb_top bb_bottom mt_bounds meta_new]. cbv zeta.
    change (lonlat_resolution / coordinate_precision) with 100.
    fold (rx (px (bottom_left (mt_bounds m)))) (rx (py (bottom_left (mt_bounds m)))) (rx (px (top_right (mt_bounds m)))) (rx (py (top_right (mt_bounds m)))).
    set (bl := bottom_left (mt_bounds m)) in *. set (tr := top_right (mt_bounds m)) in *.
    destruct (rx_i32 _ A1 A3) as [I1 N1]. destruct (rx_i32 _ A2 A4) as [I2 N2]. destruct (rx_i32 _ B1 B3) as [I3 N3]. destruct (rx_i32 _ B2 B4) as [I4 N4].
    pose proof (rx_mono _ _ A1 B1 O1) as M1. pose proof (rx_mono _ _ A2 B2 O2) as M2.
    unfold pos_of_int64. rewrite !to_i32_id by assumption.
    assert (D0 : bounds_extend bounds_new (mkPos (rx (px bl)) (rx (py bl))) = mkBounds (mkPos (rx (px bl)) (rx (py bl))) (mkPos (rx (px bl)) (rx (py bl)))) by reflexivity.
    rewrite D0. unfold bounds_extend. cbn [bottom_left top_right px py]. unfold pos_defined. cbn [px py].
    rewrite (proj2 (Z.eqb_neq _ _) N1), (proj2 (Z.eqb_neq _ _) N2). cbn [negb andb bottom_left top_right px py].
    unfold pos_almost. cbn [px py].
    pose proof (rx_almost _ A1). pose proof (rx_almost _ A2). pose proof (rx_almost _ B1). pose proof (rx_almost _ B2).
    destruct (rx (px tr) <? rx (px bl)) eqn:C1; [lia|]. destruct (rx (py tr) <? rx (py bl)) eqn:C2; [lia|].
    split; [split; assumption|].
    destruct (rx (px tr) >? rx (px bl)) eqn:C3; destruct (rx (py tr) >? rx (py bl)) eqn:C4.
    + split; assumption.
    + split; [assumption|]. replace (rx (py bl)) with (rx (py tr)) by lia. assumption.
    + split; [|assumption]. replace (rx (px bl)) with (rx (px tr)) by lia. assumption.
    + split; [replace (rx (px bl)) with (rx (px tr)) by lia|replace (rx (py bl)) with (rx (py tr)) by lia]; assumption.
Qed.

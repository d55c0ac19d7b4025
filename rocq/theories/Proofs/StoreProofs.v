From Verif Require Import Base.Prelude Model.Store Spec.StoreSpec.

Section P.
Context {V : Type}.
Variables (dflt zv : V) (sz : Z).
Hypothesis Hsz : 0 < sz.

Lemma run_app {S} (step : sop V -> S -> outcome S) a b s : run step (a ++ b) s = run step b (run step a s).
Proof. unfold run. apply fold_left_app. Qed.
Lemma run_snoc {S} (step : sop V -> S -> outcome S) a o s : run step (a ++ [o]) s = (let! s := run step a s in step o s).
Proof. unfold run. rewrite fold_left_app. reflexivity. Qed.
Lemma last_set_snoc (ops : list (sop V)) o id : last_set (ops ++ [o]) id = last_set1 id (last_set ops id) o.
Proof. unfold last_set. rewrite fold_left_app. reflexivity. Qed.
Lemma last_set_in (ops : list (sop V)) id v : last_set ops id = Some v -> In id (set_ids ops).
Proof.
  revert v. induction ops as [|o ops IH] using rev_ind; [discriminate|]. intros v.
  rewrite last_set_snoc. unfold set_ids in *. rewrite flat_map_app, in_app_iff. destruct o as [i w ok| |ok]; cbn.
  - destruct (Z.eqb_spec i id); [subst; auto|]. intros H. left. eapply IH; exact H.
  - discriminate.
  - intros H. left. eapply IH; exact H.
Qed.
Lemma inside_iff b id : inside_bytes sz b id = true <-> 0 <= id /\ (id + 1) * sz <= b.
Proof. unfold inside_bytes. rewrite andb_true_iff, Z.leb_le, Z.leb_le. reflexivity. Qed.
Lemma inside_mul n id : inside_bytes sz (sz * n) id = true <-> 0 <= id < n.
Proof. rewrite inside_iff. nia. Qed.
Lemma inside_mul_f n id : inside_bytes sz (sz * n) id = false <-> ~ (0 <= id < n).
Proof. rewrite <- inside_mul. destruct (inside_bytes sz (sz * n) id); split; congruence. Qed.

(* ---- FixedArray ---- *)
Lemma fa_correct max_id (ops : list (sop V)) : 0 <= sz * max_id < 18446744073709551616 ->
  Forall not_clear ops -> (forall id, In id (set_ids ops) -> 0 <= id < max_id) ->
  exists s, run (fa_op sz) ops (fa_new sz max_id true) = Ok s /\
    forall id, fa_get sz id s = match last_set ops id with Some v => Ok v | None => UB end.
Proof.
  intros Hm. induction ops as [|o ops IH] using rev_ind.
  - intros _ _. eexists; split; [reflexivity|]. intros id. unfold fa_get; cbn.
    destruct (inside_bytes _ _ _); reflexivity.
  - intros HF HI. apply Forall_app in HF as [HF HO]. inversion HO as [|? ? Ho _]; subst.
    assert (HI' : forall id, In id (set_ids ops) -> 0 <= id < max_id).
    { intros id H. apply HI. unfold set_ids. rewrite flat_map_app, in_app_iff. left. exact H. }
    assert (MEM : forall (l : list (sop V)) s, Forall not_clear l -> run (fa_op sz) l (fa_new sz max_id true) = Ok s -> fa_mem s = Some (sz * max_id)).
    { clear - Hm Hsz. induction l as [|o l IH] using rev_ind; intros s HF.
      - intros [= <-]. cbn. rewrite to_u64_id; [reflexivity|unfold in_u64; lia].
      - rewrite run_snoc. apply Forall_app in HF as [HF HO]. destruct (run _ _ _) as [s1| | |]; try discriminate.
        specialize (IH s1 HF eq_refl). cbn. destruct o as [i v ok| |ok]; cbn.
        + unfold fa_set. rewrite IH. destruct (inside_bytes _ _ _); [|discriminate]. intros [= <-]. reflexivity.
        + inversion HO; subst. cbn in *. tauto.
        + intros [= <-]. exact IH. }
    destruct (IH HF HI') as (s & R & G). pose proof (MEM ops s HF R) as M.
    rewrite run_snoc, R. cbn [obind]. destruct o as [i v ok| |ok]; cbn [fa_op]; [|cbn in Ho; tauto|].
    + assert (Hi : 0 <= i < max_id).
      { apply HI. unfold set_ids. rewrite flat_map_app, in_app_iff. right. cbn. auto. }
      unfold fa_set. rewrite M. rewrite (proj2 (inside_mul max_id i) Hi).
      eexists; split; [reflexivity|]. intros id. rewrite last_set_snoc. cbn [last_set1].
      specialize (G id). unfold fa_get in *. rewrite M in G. cbn [fa_mem fa_cells]. unfold fupd.
      rewrite (Z.eqb_sym i id). destruct (Z.eqb_spec id i) as [->|N].
      * rewrite (proj2 (inside_mul max_id i) Hi). reflexivity.
      * exact G.
    + eexists; split; [reflexivity|]. intros id. rewrite last_set_snoc. apply G.
Qed.

(* ---- MmapAnon ---- *)
Record ma_inv (ops : list (sop V)) (s : mmap_anon) : Prop := {
  mai_map : ma_map s = Some (sz * ma_size s);
  mai_size : size_increment <= ma_size s;
  mai_set : forall id, In id (set_ids ops) -> 0 <= id < ma_size s;
  mai_cells : forall id, 0 <= id < ma_size s -> ma_cells s id = or_else (last_set ops id) zv }.

Lemma addressable_zero : addressable sz 0 -> 0 <= sz * size_increment < 18446744073709551616.
Proof. unfold addressable. unfold size_increment. lia. Qed.

Lemma set_ids_snoc (ops : list (sop V)) o : set_ids (ops ++ [o]) = set_ids ops ++ match o with SSet i _ _ => [i] | _ => [] end.
Proof. unfold set_ids. rewrite flat_map_app. cbn. destruct o; reflexivity. Qed.

Lemma ma_correct (ops : list (sop V)) : addressable sz 0 ->
  Forall not_clear ops -> (forall id, In id (set_ids ops) -> addressable sz id) ->
  (exists s, run (ma_op zv sz) ops (ma_new zv sz true) = Ok s /\ ma_inv ops s) \/
  (run (ma_op zv sz) ops (ma_new zv sz true) = Throw EBadAlloc /\ ~ Forall granted ops).
Proof.
  intros H0. induction ops as [|o ops IH] using rev_ind.
  - intros _ _. left. eexists; split; [reflexivity|]. apply addressable_zero in H0. constructor; cbn.
    + rewrite to_u64_id; [reflexivity|unfold in_u64; lia].
    + lia.
    + tauto.
    + reflexivity.
  - intros HF HI. apply Forall_app in HF as [HF HO]. inversion HO as [|? ? Ho _]; subst.
    assert (HI' : forall id, In id (set_ids ops) -> addressable sz id).
    { intros id H. apply HI. rewrite set_ids_snoc, in_app_iff. left. exact H. }
    destruct (IH HF HI') as [(s & R & I)|[R N]]; rewrite run_snoc, R; cbn [obind].
    2:{ right. split; [reflexivity|]. intros C. apply N. apply Forall_app in C. tauto. }
    destruct I as [IM IZ IS IC].
    destruct o as [i v ok| |ok]; cbn [ma_op]; [|cbn in Ho; tauto|].
    2:{ left. exists s. split; [reflexivity|]. constructor; auto.
        - intros id. rewrite set_ids_snoc, app_nil_r. apply IS.
        - intros id. rewrite last_set_snoc. apply IC. }
    assert (Hi : addressable sz i) by (apply HI; rewrite set_ids_snoc, in_app_iff; right; cbn; auto).
    destruct Hi as [Hi1 Hi2]. unfold ma_set. destruct (Z.geb_spec i (ma_size s)) as [G|G].
    + assert (Hnew : to_u64 (i + size_increment) = i + size_increment).
      { apply to_u64_id. unfold in_u64, size_increment in *. nia. }
      rewrite Hnew. assert (Hb : to_u64 (sz * (i + size_increment)) = sz * (i + size_increment)).
      { apply to_u64_id. unfold in_u64, size_increment in *. nia. }
      rewrite Hb, IM. destruct ok; cbn [andb].
      2:{ cbn [obind]. right. split; [reflexivity|]. intros C. apply Forall_app in C as [_ C]. inversion C; subst. cbn in *. discriminate. }
      destruct (Z.ltb_spec 0 (sz * (i + size_increment))) as [Hp|Hp]; [|unfold size_increment in *; nia].
      cbn [obind ma_map ma_size ma_cells].
      rewrite (proj2 (inside_mul (i + size_increment) i)) by (unfold size_increment; lia).
      left. eexists; split; [reflexivity|]. constructor; cbn [ma_map ma_size ma_cells].
      * reflexivity.
      * lia.
      * intros id. rewrite set_ids_snoc, in_app_iff. intros [H|[<-|[]]]; [apply IS in H; unfold size_increment; lia|unfold size_increment; lia].
      * intros id Hid. unfold fupd. rewrite last_set_snoc. cbn [last_set1]. rewrite (Z.eqb_sym i id).
        destruct (Z.eqb_spec id i) as [->|N]; [reflexivity|].
        replace (Z.min (sz * ma_size s) (sz * (i + size_increment))) with (sz * ma_size s) by (unfold size_increment in *; nia).
        destruct (inside_bytes sz (sz * ma_size s) id) eqn:B.
        -- apply inside_mul in B. apply IC. exact B.
        -- apply inside_mul_f in B. destruct (last_set ops id) eqn:L; [|reflexivity].
           exfalso. apply B. apply IS. eapply last_set_in. exact L.
    + cbn [obind]. rewrite IM. rewrite (proj2 (inside_mul (ma_size s) i)) by lia.
      left. eexists; split; [reflexivity|]. constructor; cbn [ma_map ma_size ma_cells].
      * reflexivity.
      * exact IZ.
      * intros id. rewrite set_ids_snoc, in_app_iff. intros [H|[<-|[]]]; [apply IS in H; lia|lia].
      * intros id Hid. unfold fupd. rewrite last_set_snoc. cbn [last_set1]. rewrite (Z.eqb_sym i id).
        destruct (Z.eqb_spec id i) as [->|N]; [reflexivity|]. apply IC. exact Hid.
Qed.
Lemma ma_main (ops : list (sop V)) : addressable sz 0 ->
  Forall not_clear ops -> (forall id, In id (set_ids ops) -> addressable sz id) ->
  (exists s, run (ma_op zv sz) ops (ma_new zv sz true) = Ok s /\
     (forall id, In id (set_ids ops) -> id < ma_size s) /\
     forall id, ma_get sz id s =
       if (0 <=? id) && (id <? ma_size s) then Ok (or_else (last_set ops id) zv) else UB) \/
  (run (ma_op zv sz) ops (ma_new zv sz true) = Throw EBadAlloc /\ ~ Forall granted ops).
Proof.
  intros H0 HF HI. destruct (ma_correct ops H0 HF HI) as [(s & R & [IM IZ IS IC])|H]; [left|right; exact H].
  exists s. split; [exact R|]. split; [intros id H; apply IS in H; lia|]. intros id. unfold ma_get. rewrite IM.
  destruct ((0 <=? id) && (id <? ma_size s)) eqn:B.
  - rewrite (proj2 (inside_mul (ma_size s) id)) by lia. rewrite IC by lia. reflexivity.
  - rewrite (proj2 (inside_mul_f (ma_size s) id)) by lia. reflexivity.
Qed.

(* ---- MmapFile ---- *)
Record mf_inv (f0 : Z -> V) (ops : list (sop V)) (s : mmap_file) : Prop := {
  mfi_map : mf_map s = Some (sz * mf_size s);
  mfi_size : 1 <= mf_size s;
  mfi_file : sz * mf_size s <= f_bytes (mf_file s);
  mfi_cells : forall id, f_cells (mf_file s) id = or_else (last_set ops id) (f0 id) }.
Lemma file_grow_cells b (f : file) : f_cells (file_grow (V:=V) b f) = f_cells f.
Proof. unfold file_grow. destruct (_ <? _); reflexivity. Qed.
Lemma file_grow_bytes b (f : file) : f_bytes (file_grow (V:=V) b f) = Z.max (f_bytes f) b.
Proof. unfold file_grow. destruct (Z.ltb_spec (f_bytes f) b); cbn; lia. Qed.
Lemma mf_open_inv f ok s f0 (ops : list (sop V)) : addressable sz 0 -> (forall id, f_cells f id = or_else (last_set ops id) (f0 id)) ->
  mf_open sz f ok = Ok s -> mf_inv f0 ops s /\ mf_size s = 1.
Proof.
  intros H0 HC. unfold mf_open. destruct ok; [|discriminate]. intros [= <-].
  assert (E : to_u64 (sz * 1) = sz * 1) by (apply to_u64_id; unfold in_u64; unfold addressable, size_increment in H0; nia).
  rewrite E. split; [|reflexivity]. constructor; cbn [mf_map mf_size mf_file].
  - reflexivity.
  - lia.
  - rewrite file_grow_bytes. lia.
  - intros id. rewrite file_grow_cells. apply HC.
Qed.
Lemma mf_correct f (ops : list (sop V)) : addressable sz 0 ->
  Forall not_clear ops -> (forall id, In id (set_ids ops) -> addressable sz id) ->
  (exists s, run (mf_op sz) ops (mf_open sz f true) = Ok s /\ mf_inv (f_cells f) ops s) \/
  (run (mf_op sz) ops (mf_open sz f true) = Throw EBadAlloc /\ ~ Forall granted ops).
Proof.
  intros H0. induction ops as [|o ops IH] using rev_ind.
  - intros _ _. left. eexists; split; [reflexivity|]. eapply (mf_open_inv f true); [exact H0| |reflexivity]. reflexivity.
  - intros HF HI. apply Forall_app in HF as [HF HO]. inversion HO as [|? ? Ho _]; subst.
    assert (HI' : forall id, In id (set_ids ops) -> addressable sz id).
    { intros id H. apply HI. rewrite set_ids_snoc, in_app_iff. left. exact H. }
    destruct (IH HF HI') as [(s & R & I)|[R N]]; rewrite run_snoc, R; cbn [obind].
    2:{ right. split; [reflexivity|]. intros C. apply N. apply Forall_app in C. tauto. }
    destruct I as [IM IZ IFl IC].
    destruct o as [i v ok| |ok]; cbn [mf_op]; [|cbn in Ho; tauto|].
    2:{ destruct (mf_open sz (mf_file (mf_clear s)) ok) as [s2| | |] eqn:E.
        - left. exists s2. split; [reflexivity|]. eapply mf_open_inv; [exact H0| |exact E].
          intros id. rewrite last_set_snoc. cbn. apply IC.
        - right. unfold mf_open in E. destruct ok; [discriminate|]. split; [congruence|].
          intros C. apply Forall_app in C as [_ C]. inversion C; subst. cbn in *. discriminate.
        - unfold mf_open in E. destruct ok; discriminate.
        - unfold mf_open in E. destruct ok; discriminate. }
    assert (Hi : addressable sz i) by (apply HI; rewrite set_ids_snoc, in_app_iff; right; cbn; auto).
    destruct Hi as [Hi1 Hi2]. unfold mf_set. destruct (Z.geb_spec i (mf_size s)) as [G|G].
    + assert (Hnew : to_u64 (i + size_increment) = i + size_increment).
      { apply to_u64_id. unfold in_u64, size_increment in *. nia. }
      rewrite Hnew. assert (Hb : to_u64 (sz * (i + size_increment)) = sz * (i + size_increment)).
      { apply to_u64_id. unfold in_u64, size_increment in *. nia. }
      rewrite Hb. destruct ok; cbn [andb].
      2:{ cbn [obind]. right. split; [reflexivity|]. intros C. apply Forall_app in C as [_ C]. inversion C; subst. cbn in *. discriminate. }
      destruct (Z.ltb_spec 0 (sz * (i + size_increment))) as [Hp|Hp]; [|unfold size_increment in *; nia].
      cbn [obind]. unfold mf_access. cbn [mf_map mf_file mf_size]. rewrite file_grow_bytes.
      rewrite (proj2 (inside_mul (i + size_increment) i)) by (unfold size_increment; lia).
      rewrite (proj2 (inside_iff (Z.max (f_bytes (mf_file s)) (sz * (i + size_increment))) i)) by (unfold size_increment in *; split; [lia|nia]).
      cbn [andb]. left. eexists; split; [reflexivity|]. constructor; cbn [mf_map mf_size mf_file f_bytes f_cells].
      * reflexivity.
      * unfold size_increment; lia.
      * lia.
      * intros id. rewrite file_grow_cells. unfold fupd. rewrite last_set_snoc. cbn [last_set1]. rewrite (Z.eqb_sym i id).
        destruct (Z.eqb_spec id i) as [->|N]; [reflexivity|]. apply IC.
    + cbn [obind]. unfold mf_access. rewrite IM. rewrite (proj2 (inside_mul (mf_size s) i)) by lia.
      rewrite (proj2 (inside_iff (f_bytes (mf_file s)) i)) by (split; [lia|nia]).
      cbn [andb]. left. eexists; split; [reflexivity|]. constructor; cbn [mf_map mf_size mf_file f_bytes f_cells]; auto.
      intros id. unfold fupd. rewrite last_set_snoc. cbn [last_set1]. rewrite (Z.eqb_sym i id).
      destruct (Z.eqb_spec id i) as [->|N]; [reflexivity|]. apply IC.
Qed.
Lemma mf_main f (ops : list (sop V)) : addressable sz 0 ->
  Forall not_clear ops -> (forall id, In id (set_ids ops) -> addressable sz id) ->
  (exists s, run (mf_op sz) ops (mf_open sz f true) = Ok s /\
     (forall id, mf_get sz id s = if (0 <=? id) && (id <? mf_size s) then Ok (or_else (last_set ops id) (f_cells f id)) else UB) /\
     (forall id, f_cells (mf_file s) id = or_else (last_set ops id) (f_cells f id))) \/
  (run (mf_op sz) ops (mf_open sz f true) = Throw EBadAlloc /\ ~ Forall granted ops).
Proof.
  intros H0 HF HI. destruct (mf_correct f ops H0 HF HI) as [(s & R & [IM IZ IFl IC])|H]; [left|right; exact H].
  exists s. split; [exact R|]. split; [|exact IC]. intros id. unfold mf_get, mf_access. rewrite IM.
  destruct ((0 <=? id) && (id <? mf_size s)) eqn:B.
  - rewrite (proj2 (inside_mul (mf_size s) id)) by lia.
    rewrite (proj2 (inside_iff (f_bytes (mf_file s)) id)) by (split; [lia|nia]). cbn. rewrite IC by lia. reflexivity.
  - rewrite (proj2 (inside_mul_f (mf_size s) id)) by lia. reflexivity.
Qed.
(** the mapped size after operations: 1 after opening, beyond every id set since then *)
Lemma mf_size_covers f (pre sets : list (sop V)) s : Forall is_set sets ->
  run (mf_op sz) (pre ++ sets) (mf_open sz f true) = Ok s -> (forall id, In id (set_ids sets) -> addressable sz id) ->
  (forall s0, run (mf_op sz) pre (mf_open sz f true) = Ok s0 -> 1 <= mf_size s0) ->
  1 <= mf_size s /\ forall id, In id (set_ids sets) -> id < mf_size s.
Proof.
  revert s. induction sets as [|o sets IH] using rev_ind; intros s HF R HA HP.
  - rewrite app_nil_r in R. split; [apply HP; exact R|intros id []].
  - rewrite app_assoc, run_snoc in R. apply Forall_app in HF as [HF HO].
    destruct (run (mf_op sz) (pre ++ sets) _) as [s1| | |] eqn:R1; try discriminate. cbn in R.
    destruct (IH s1 HF eq_refl) as [I1 I2]; [intros id H; apply HA; rewrite set_ids_snoc, in_app_iff; auto|exact HP|].
    inversion HO as [|? ? Ho _]; subst. destruct o as [i v ok| |ok]; try (cbn in Ho; tauto). cbn [mf_op] in R.
    assert (Hi : addressable sz i) by (apply HA; rewrite set_ids_snoc, in_app_iff; cbn; auto).
    assert (Hnew : to_u64 (i + size_increment) = i + size_increment).
    { destruct Hi as [Hi1 Hi2]. apply to_u64_id. unfold in_u64, size_increment in *. nia. }
    unfold mf_set in R. destruct Hi as [Hi1 Hi2].
    destruct (Z.geb_spec i (mf_size s1)).
    + destruct (ok && _); [|discriminate]. cbn [obind] in R. destruct (mf_access _ _ _); [|discriminate].
      injection R as <-. cbn [mf_size]. rewrite Hnew. split; [unfold size_increment; lia|].
      intros id. rewrite set_ids_snoc, in_app_iff. unfold size_increment. intros [H2|[<-|[]]]; [apply I2 in H2; lia|lia].
    + cbn [obind] in R. destruct (mf_access _ _ _); [|discriminate]. injection R as <-. cbn [mf_size].
      split; [exact I1|]. intros id. rewrite set_ids_snoc, in_app_iff. intros [H2|[<-|[]]]; [apply I2 in H2; lia|lia].
Qed.
(** what persistence gives: after reopening, once an id at least as large has been set, the
    old values are found *)
Lemma mf_persist f (pre sets : list (sop V)) s id top :
  addressable sz 0 -> Forall not_clear pre -> Forall is_set sets ->
  (forall i, In i (set_ids (pre ++ SReopen true :: sets)) -> addressable sz i) ->
  run (mf_op sz) (pre ++ SReopen true :: sets) (mf_open sz f true) = Ok s ->
  In top (set_ids sets) -> 0 <= id <= top ->
  mf_get sz id s = Ok (or_else (last_set (pre ++ sets) id) (f_cells f id)).
Proof.
  intros H0 HF HS HA R HT Hid.
  assert (Hnc : Forall not_clear (pre ++ SReopen true :: sets)).
  { apply Forall_app; split; [exact HF|]. constructor; [exact I|]. eapply Forall_impl; [|exact HS].
    intros [| |]; cbn; tauto. }
  destruct (mf_main f _ H0 Hnc HA) as [(s' & R' & G & _)|[R' _]]; rewrite R' in R; [|discriminate].
  injection R as <-. rewrite G.
  assert (C : 1 <= mf_size s' /\ forall i, In i (set_ids sets) -> i < mf_size s').
  { apply (mf_size_covers f (pre ++ [SReopen true]) sets s' HS).
    - rewrite <- app_assoc. exact R'.
    - intros i Hi. apply HA. unfold set_ids. rewrite flat_map_app, in_app_iff. right. exact Hi.
    - intros s0. rewrite run_snoc. destruct (run _ pre _); try discriminate. cbn. unfold mf_open. intros [= <-]. cbn. lia. }
  destruct C as [_ C]. specialize (C top HT).
  replace ((0 <=? id) && (id <? mf_size s')) with true by lia.
  f_equal. f_equal. unfold last_set. rewrite !fold_left_app. reflexivity.
Qed.

(* ---- SparseTable ---- *)
Lemma sp_correct grow (ops : list (sop V)) : 0 < grow ->
  (forall id, In id (set_ids ops) -> 0 <= id /\ id + grow < 18446744073709551616) ->
  exists s, run sp_op ops (Ok (sp_new grow)) = Ok s /\
    sp_grow s = grow /\ 0 <= sp_size s /\
    (forall id, 0 <= id -> sp_cells s id = last_set ops id) /\
    (forall id, 0 <= id -> last_set ops id <> None -> id < sp_size s).
Proof.
  intros Hg. induction ops as [|o ops IH] using rev_ind.
  - intros _. eexists; split; [reflexivity|]. cbn. repeat split; auto; try lia. intros id _ H. congruence.
  - intros HI. destruct IH as (s & R & Gr & Sz & C & B).
    { intros id H. apply HI. rewrite set_ids_snoc, in_app_iff. auto. }
    rewrite run_snoc, R. cbn [obind]. destruct o as [i v ok| |ok]; cbn [sp_op].
    + destruct (HI i) as [Hi1 Hi2]; [rewrite set_ids_snoc, in_app_iff; cbn; auto|].
      unfold sp_set. destruct (Z.geb_spec i (sp_size s)) as [G|G].
      * cbn [sp_resize sp_size sp_grow sp_cells]. rewrite Gr. rewrite to_u64_id by (unfold in_u64; lia).
        replace ((0 <=? i) && (i <? i + grow)) with true by lia.
        eexists; split; [reflexivity|]. cbn [sp_grow sp_size sp_cells]. rewrite ?Gr.
        split; [reflexivity|]. split; [lia|]. split.
        -- intros id Hid. unfold fupd. rewrite last_set_snoc. cbn [last_set1]. rewrite (Z.eqb_sym i id).
           destruct (Z.eqb_spec id i); [reflexivity|]. destruct (Z.ltb_spec id (i + grow)); [apply C; exact Hid|].
           destruct (last_set ops id) eqn:L; [|reflexivity]. specialize (B id Hid). rewrite L in B. specialize (B ltac:(congruence)). lia.
        -- intros id Hid. rewrite last_set_snoc. cbn [last_set1]. destruct (Z.eqb_spec i id); [lia|].
           intros L. specialize (B id Hid L). lia.
      * replace ((0 <=? i) && (i <? sp_size s)) with true by lia.
        eexists; split; [reflexivity|]. cbn [sp_grow sp_size sp_cells].
        split; [exact Gr|]. split; [exact Sz|]. split.
        -- intros id Hid. unfold fupd. rewrite last_set_snoc. cbn [last_set1]. rewrite (Z.eqb_sym i id).
           destruct (Z.eqb_spec id i); [reflexivity|apply C; exact Hid].
        -- intros id Hid. rewrite last_set_snoc. cbn [last_set1]. destruct (Z.eqb_spec i id); [lia|].
           intros L. exact (B id Hid L).
    + eexists; split; [reflexivity|]. cbn [sp_clear sp_grow sp_size sp_cells].
      split; [exact Gr|]. split; [lia|]. split; intros id Hid; rewrite last_set_snoc; cbn; congruence.
    + exists s. split; [reflexivity|]. split; [exact Gr|]. split; [exact Sz|].
      split; intros id Hid; rewrite last_set_snoc; cbn; [apply C|apply B]; exact Hid.
Qed.
Lemma sp_main grow (ops : list (sop V)) : 0 < grow ->
  (forall id, In id (set_ids ops) -> 0 <= id /\ id + grow < 18446744073709551616) ->
  exists s, run sp_op ops (Ok (sp_new grow)) = Ok s /\
    forall id, 0 <= id -> sp_get dflt id s = Ok (or_else (last_set ops id) dflt).
Proof.
  intros Hg HI. destruct (sp_correct grow ops Hg HI) as (s & R & _ & _ & C & B). exists s. split; [exact R|].
  intros id Hid. unfold sp_get. rewrite C by exact Hid. destruct (Z.geb_spec id (sp_size s)).
  - destruct (last_set ops id) eqn:L; [|reflexivity]. specialize (B id Hid). rewrite L in B. specialize (B ltac:(congruence)). lia.
  - rewrite (proj2 (Z.leb_le _ _) Hid), (proj2 (Z.ltb_lt _ _)) by lia. cbn [andb]. destruct (last_set ops id); reflexivity.
Qed.

(* ---- StlMap ---- *)
Lemma sm_get_set i v m id : sm_get (V:=V) id (sm_set i v m) = if id =? i then Ok v else sm_get id m.
Proof.
  induction m as [|[j w] m IH]; cbn.
  - destruct (id =? i); reflexivity.
  - destruct (Z.ltb_spec i j); cbn; [destruct (id =? i); reflexivity|].
    destruct (Z.eqb_spec i j); cbn.
    + subst. destruct (Z.eqb_spec id j); reflexivity.
    + rewrite IH. destruct (Z.eqb_spec id j); [|reflexivity]. destruct (Z.eqb_spec id i); [lia|reflexivity].
Qed.
Lemma sm_main (ops : list (sop V)) id : Forall not_clear ops ->
  sm_get id (fold_left (fun s o => sm_op o s) ops []) = match last_set ops id with Some v => Ok v | None => Throw EOutOfRange end.
Proof.
  induction ops as [|o ops IH] using rev_ind; intros HF; [reflexivity|].
  apply Forall_app in HF as [HF HO]. inversion HO as [|? ? Ho _]; subst.
  rewrite fold_left_app, last_set_snoc. cbn [fold_left]. destruct o as [i v ok| |ok]; cbn; [|cbn in Ho; tauto|auto].
  rewrite sm_get_set. rewrite (Z.eqb_sym id i). destruct (i =? id); auto.
Qed.

(* ---- Vector ---- *)
Definition vsorted (m : vector) : Prop := StronglySorted (fun a b : Z * V => fst a < fst b) m.
Lemma vsorted_nth m : vsorted m -> forall i j a b, (i < j)%nat -> nth_error m i = Some a -> nth_error m j = Some b -> fst a < fst b.
Proof.
  induction 1 as [|x l S IH F]; intros [|i] [|j] a b Hij Ha Hb; try lia; try discriminate; cbn in *.
  - injection Ha as <-. rewrite Forall_forall in F. apply F. eapply nth_error_In; exact Hb.
  - eapply IH; [|exact Ha|exact Hb]. lia.
Qed.
Lemma lower_bound_spec m id : vsorted m -> forall fuel first count,
  (count <= fuel)%nat -> (first + count <= List.length m)%nat ->
  (forall i a, (i < first)%nat -> nth_error m i = Some a -> fst a < id) ->
  (forall i a, (first + count <= i)%nat -> nth_error m i = Some a -> id <= fst a) ->
  exists p, lower_bound fuel m id first count = Some p /\
    (forall i a, (i < p)%nat -> nth_error m i = Some a -> fst a < id) /\
    (forall i a, (p <= i)%nat -> nth_error m i = Some a -> id <= fst a).
Proof.
  intros S. induction fuel as [|fuel IH]; intros first count Hf Hl Hlo Hhi.
  - assert (count = 0)%nat by lia. subst. exists first. cbn. rewrite Nat.add_0_r in Hhi. auto.
  - destruct count as [|count]; [exists first; rewrite Nat.add_0_r in Hhi; cbn; auto|].
    cbn [lower_bound]. set (step := Nat.div2 (Datatypes.S count)).
    assert (Hstep : (step < Datatypes.S count)%nat) by (apply Nat.lt_div2; lia).
    destruct (nth_error m (first + step)) as [[x w]|] eqn:E.
    2:{ apply nth_error_None in E. lia. }
    destruct (Z.ltb_spec x id).
    + apply IH; try lia.
      * intros i a Hi Ha. destruct (Nat.eq_dec i (first + step)) as [->|N].
        -- rewrite E in Ha. injection Ha as <-. cbn. lia.
        -- destruct (Nat.lt_ge_cases i (first + step)).
           ++ pose proof (vsorted_nth m S i (first + step) a (x, w) ltac:(lia) Ha E). cbn in *. lia.
           ++ lia.
      * intros i a Hi. apply Hhi. lia.
    + apply IH; try lia.
      * exact Hlo.
      * intros i a Hi Ha. destruct (Nat.eq_dec i (first + step)) as [->|N].
        -- rewrite E in Ha. injection Ha as <-. cbn. lia.
        -- pose proof (vsorted_nth m S (first + step) i (x, w) a ltac:(lia) E Ha). cbn in *. lia.
Qed.
Lemma vec_get_spec m id : vsorted m ->
  (exists v, In (to_i64 id, v) m /\ vec_get dflt id m = Some v) \/
  ((forall v, ~ In (to_i64 id, v) m) /\ vec_get dflt id m = Some dflt).
Proof.
  intros S. destruct (lower_bound_spec m (to_i64 id) S (List.length m) 0 (List.length m)) as (p & E & Hlo & Hhi).
  - lia.
  - lia.
  - intros; lia.
  - intros i a Hi Ha. assert (i < List.length m)%nat by (apply nth_error_Some; congruence). lia.
  - unfold vec_get. rewrite E. destruct (nth_error m p) as [[i v]|] eqn:N.
    + destruct (Z.eqb_spec i (to_i64 id)) as [->|Ne].
      * left. exists v. split; [eapply nth_error_In; exact N|reflexivity].
      * right. split; [|reflexivity]. intros w Hin. apply In_nth_error in Hin as [q Hq].
        destruct (Nat.lt_trichotomy q p) as [L|[->|L]].
        -- specialize (Hlo _ _ L Hq). cbn in Hlo. lia.
        -- rewrite N in Hq. congruence.
        -- pose proof (vsorted_nth m S p q _ _ L N Hq). pose proof (Hhi p _ ltac:(lia) N). cbn in *. lia.
    + right. split; [|reflexivity]. intros w Hin. apply In_nth_error in Hin as [q Hq].
      apply nth_error_None in N. assert (q < List.length m)%nat by (apply nth_error_Some; congruence).
      specialize (Hlo q _ ltac:(lia) Hq). cbn in Hlo. lia.
Qed.
Lemma StronglySorted_snoc {A} (R : A -> A -> Prop) l x : StronglySorted R l -> Forall (fun y => R y x) l -> StronglySorted R (l ++ [x]).
Proof.
  induction 1 as [|a l S IH F]; cbn; intros H; [repeat constructor|].
  inversion H; subst. constructor; [auto|]. apply Forall_app; split; [exact F|repeat constructor; assumption].
Qed.
Lemma vec_gen (ops : list (sop V)) : forall m low (cur : Z -> option V),
  -1 <= low -> increasing_since_clear ops low -> vsorted m -> Forall (fun e => 0 <= fst e <= low) m ->
  (forall id v, In (id, v) m <-> cur id = Some v) ->
  let m' := fold_left (fun s o => vec_op o s) ops m in
  vsorted m' /\ Forall (fun e => 0 <= fst e) m' /\
  (forall id v, In (id, v) m' <-> fold_left (last_set1 id) ops (cur id) = Some v).
Proof using.
  clear dflt zv Hsz sz.
  induction ops as [|o ops IH]; intros m low cur Hlow HI S F C; cbn [fold_left].
  - split; [exact S|]. split; [|exact C]. eapply Forall_impl; [|exact F]. cbn; intros; lia.
  - destruct o as [i v ok| |ok]; cbn [vec_op last_set1 increasing_since_clear] in *.
    + destruct HI as [Hi HI]. unfold vec_store.
      assert (Ei : to_i64 i = i) by (apply to_i64_id; unfold in_i64, int64_min in *; lia). rewrite Ei.
      apply (IH (m ++ [(i, v)]) i (fun id => if i =? id then Some v else cur id)); [lia|exact HI| | |].
      * apply StronglySorted_snoc; [exact S|]. eapply Forall_impl; [|exact F]. cbn; intros; lia.
      * apply Forall_app; split; [eapply Forall_impl; [|exact F]; cbn; intros; lia|repeat constructor; cbn; lia].
      * intros id w. rewrite in_app_iff. cbn [In]. rewrite C. destruct (Z.eqb_spec i id) as [->|N].
        -- split; [|intros [= ->]; auto]. intros [H|[[= ->]|[]]]; [|reflexivity].
           apply C in H. rewrite Forall_forall in F. apply F in H. cbn in H. lia.
        -- split; [intros [H|[[= -> ->]|[]]]; [exact H|congruence]|auto].
    + apply (IH [] (-1) (fun _ => None)); [lia|exact HI|constructor|constructor|]. intros id w. split; [intros []|discriminate].
    + apply (IH m low cur); assumption.
Qed.
Lemma vec_main (ops : list (sop V)) id : increasing_since_clear ops (-1) -> 0 <= id <= int64_max ->
  vec_get dflt id (fold_left (fun s o => vec_op o s) ops []) = Some (or_else (last_set ops id) dflt).
Proof using dflt.
  clear zv Hsz sz.
  intros HI Hid. destruct (vec_gen ops [] (-1) (fun _ => None)) as (S & _ & C); [lia|exact HI|constructor|constructor| |].
  - intros i v. split; [intros []|discriminate].
  - cbv zeta in *. assert (Ei : to_i64 id = id) by (apply to_i64_id; unfold in_i64, int64_min in *; lia).
    destruct (vec_get_spec _ id S) as [(v & Hin & E)|[Hn E]]; rewrite E; f_equal; rewrite Ei in *.
    + apply C in Hin. unfold last_set. rewrite Hin. reflexivity.
    + destruct (last_set ops id) as [w|] eqn:L; [|reflexivity]. exfalso. apply (Hn w). apply C. exact L.
Qed.
End P.

(* ---- counterexamples ---- *)
From Verif Require Import Model.Osm.
Lemma fa_unset_refuted : exists ops : list (sop Z), exists s id, Forall not_clear ops /\ 0 <= id < 10 /\
  run (fa_op 8) ops (fa_new 8 10 true) = Ok s /\ last_set ops id = None /\ fa_get 8 id s = UB.
Proof.
  exists [SSet 3 7 true]. eexists. exists 4. split; [repeat constructor|]. split; [lia|]. split; [reflexivity|].
  split; reflexivity.
Qed.
Lemma ma_default_refuted : exists (ops : list (sop position)) s id, run (ma_op (mkPos 0 0) 8) ops (ma_new (mkPos 0 0) 8 true) = Ok s /\
  0 <= id < ma_size s /\ last_set ops id = None /\ ma_get 8 id s = Ok (mkPos 0 0) /\ mkPos 0 0 <> undef_pos /\ pos_defined (mkPos 0 0) = true.
Proof.
  exists []. eexists. exists 5. split; [reflexivity|]. split; [cbn; unfold size_increment; lia|]. repeat split; discriminate.
Qed.
Lemma clear_then_set_refuted :
  run (fa_op 8) [SClear; SSet 3 7 true] (fa_new 8 10 true) = UB /\
  run (ma_op 0 8) [SClear; SSet 3 7 true] (ma_new 0 8 true) = UB /\
  run (mf_op 8) [SClear; SSet 0 7 true] (mf_open 8 (file_empty 0) true) = UB.
Proof. repeat split. Qed.
Lemma huge_id_refuted :
  run (ma_op 0 8) [SSet 18446744073709551615 7 true] (ma_new 0 8 true) = UB /\
  run sp_op [SSet 18446744073709551615 7 true] (Ok (sp_new 10000)) = UB.
Proof. split; reflexivity. Qed.
Lemma mf_reopen_refuted : exists (ops : list (sop Z)) s id,
  run (mf_op 8) ops (mf_open 8 (file_empty 0) true) = Ok s /\ last_set ops id = Some 7 /\ mf_get 8 id s = UB.
Proof. exists [SSet 3 7 true; SReopen true]. eexists. exists 3. repeat split. Qed.
Lemma sm_clear_refuted : exists (ops : list (sop Z)) id,
  last_set ops id = None /\ sm_get id (fold_left (fun s o => sm_op o s) ops []) = Ok 7.
Proof. exists [SSet 3 7 true; SClear], 3. split; reflexivity. Qed.
Lemma vec_repeat_refuted : exists (ops : list (sop Z)) id, Forall is_set ops /\ last_set ops id = Some 8 /\
  vec_get 0 id (fold_left (fun s o => vec_op o s) ops []) = Some 7 /\
  sm_get id (fold_left (fun s o => sm_op o s) ops []) = Ok 8.
Proof. exists [SSet 3 7 true; SSet 3 8 true], 3. split; [repeat constructor|repeat split]. Qed.
Lemma no_clear_increasing {V} (dflt : V) (ops : list (sop V)) id :
  Forall not_clear ops -> increasing_since_clear ops (-1) -> 0 <= id <= int64_max ->
  (exists v, sm_get id (fold_left (fun s o => sm_op o s) ops []) = Ok v /\
             vec_get dflt id (fold_left (fun s o => vec_op o s) ops []) = Some v) \/
  (sm_get id (fold_left (fun s o => sm_op o s) ops []) = Throw EOutOfRange /\
             vec_get dflt id (fold_left (fun s o => vec_op o s) ops []) = Some dflt).
Proof.
  intros H1 H2 H3. rewrite (sm_main ops id H1), (vec_main dflt ops id H2 H3).
  destruct (last_set ops id) as [v|]; [left; exists v; auto|right; auto].
Qed.

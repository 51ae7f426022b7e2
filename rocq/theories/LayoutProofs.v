(** Proofs about Layout.v: accessors against the packed structures. *)
From Verif Require Import Go GoProofs Layout SpecLayout.
From Coq Require Import ZifyBool ZifyNat ZifyN.

(** ** Serialisation *)
Lemma ser_app a b : ser (a ++ b) = ser a ++ ser b.
Proof. unfold ser. apply flat_map_app. Qed.
Lemma zlen_ser1 f : fit1 f -> zlen (ser1 f) = fw f.
Proof. destruct f as [w v|w bs]; cbn; intros H; [apply zlen_le_encode | unfold zlen; rewrite H; reflexivity]. Qed.
Lemma zlen_ser fs : fits fs -> zlen (ser fs) = sumw fs.
Proof.
  induction fs as [|f fs IH]; intros H; [reflexivity|].
  inversion H as [|? ? H1 H2]; subst. change (ser (f :: fs)) with (ser1 f ++ ser fs).
  rewrite zlen_app, zlen_ser1, IH by assumption. reflexivity.
Qed.
Lemma sumw_app a b : sumw (a ++ b) = sumw a + sumw b.
Proof. induction a as [|f a IH]; cbn [app sumw]; lia. Qed.
Lemma fw_nonneg f : 0 <= fw f. Proof. destruct f; cbn; lia. Qed.
Lemma sumw_nonneg fs : 0 <= sumw fs.
Proof. induction fs as [|f fs IH]; cbn [sumw]; [lia|]. pose proof (fw_nonneg f); lia. Qed.

Lemma nth_split_fields {A} (fs : list A) i f : nth_error fs i = Some f ->
  fs = firstn i fs ++ f :: skipn (S i) fs.
Proof.
  revert i; induction fs as [|x fs IH]; intros [|i] H; cbn in *; try discriminate.
  - congruence.
  - f_equal. apply IH; exact H.
Qed.

Lemma fits_app a b : fits (a ++ b) <-> fits a /\ fits b.
Proof. apply Forall_app. Qed.

(** where a field lies *)
Lemma field_split s fs i f : carries s fs -> nth_error fs i = Some f ->
  exists pre post, s_arr s = pre ++ ser1 f ++ post /\ zlen pre = sumw (firstn i fs)
    /\ zlen pre + fw f <= s_len s /\ fit1 f.
Proof.
  intros (Hwf & Hfit & rest & Harr & Hlen) Hn.
  pose proof (nth_split_fields _ _ _ Hn) as Hs.
  assert (Hf : fits (firstn i fs) /\ fits (f :: skipn (S i) fs))
    by (apply fits_app; rewrite <- Hs; exact Hfit).
  destruct Hf as [Hf1 Hf2].
  inversion Hf2 as [|? ? Hf3 Hf4]; subst.
  rewrite zlen_ser in Hlen by exact Hfit.
  exists (ser (firstn i fs)), (ser (skipn (S i) fs) ++ rest). repeat split.
  - rewrite Harr. rewrite Hs at 1. rewrite ser_app. change (ser (f :: skipn (S i) fs))
      with (ser1 f ++ ser (skipn (S i) fs)). rewrite <- !app_assoc. reflexivity.
  - apply zlen_ser; exact Hf1.
  - rewrite zlen_ser by exact Hf1. rewrite Hs in Hlen at 1. rewrite sumw_app in Hlen.
    cbn [sumw] in Hlen. pose proof (sumw_nonneg (skipn (S i) fs)). lia.
  - exact Hf3.
Qed.

Lemma skipn_zlen {A} (pre post : list A) n : zlen pre = n -> skipn (Z.to_nat n) (pre ++ post) = post.
Proof. intros <-. unfold zlen. rewrite Nat2Z.id, skipn_app, skipn_all, Nat.sub_diag. reflexivity. Qed.
Lemma firstn_zlen {A} (pre post : list A) n : zlen pre = n -> firstn (Z.to_nat n) (pre ++ post) = pre.
Proof.
  intros <-. unfold zlen. rewrite Nat2Z.id, firstn_app, firstn_all, Nat.sub_diag.
  cbn. apply app_nil_r.
Qed.

(** reading [n] bytes at [off] when the array has [mid] there *)
Lemma from_to_bytes s pre mid post off n :
  s_arr s = pre ++ mid ++ post -> zlen pre = off -> zlen mid = n -> off <= s_len s <= scap s ->
  (b <- go_from s off ;; r <- go_to b n ;; Ok (sbytes r)) = Ok mid.
Proof.
  intros Ha Hp Hm Hl. pose proof (zlen_nonneg pre). pose proof (zlen_nonneg mid). pose proof (zlen_nonneg post).
  unfold go_from. rewrite go_slice_ok by lia. cbn [rbind]. unfold go_to.
  rewrite go_slice_ok; cbn [s_arr s_len rbind].
  - rewrite Ha, skipn_zlen by exact Hp. unfold sbytes; cbn [s_arr s_len].
    rewrite skipn_O by reflexivity. rewrite Z.sub_0_r. rewrite firstn_zlen by exact Hm. reflexivity.
  - lia.
  - unfold scap; cbn [s_arr]. rewrite Ha, skipn_zlen, zlen_app by exact Hp. lia.
Qed.

Lemma at64_val s pre v post off : slice_wf s ->
  s_arr s = pre ++ le_encode 8 v ++ post -> zlen pre = off -> off <= s_len s -> is_u64 v -> at64 off s = Ok v.
Proof.
  intros Hwf Ha Hp Hl Hv. unfold slice_wf in Hwf.
  pose proof (from_to_bytes s pre _ post off 8 Ha Hp (zlen_le_encode 8 v)) as H.
  unfold at64, SliceUint64LE. destruct (go_from s off) as [b| |]; cbn [rbind] in *; try (specialize (H ltac:(unfold scap; lia)); discriminate).
  destruct (go_to b 8) as [r| |]; cbn [rbind] in *; try (specialize (H ltac:(unfold scap; lia)); discriminate).
  specialize (H ltac:(unfold scap; lia)). apply (f_equal (fun x => match x with Ok y => le_decode y | _ => 0 end)) in H. rewrite le_decode_encode in H by exact Hv. rewrite H. reflexivity.
Qed.
Lemma at32_val s pre v post off : slice_wf s ->
  s_arr s = pre ++ le_encode 4 v ++ post -> zlen pre = off -> off <= s_len s -> is_u32 v -> at32 off s = Ok v.
Proof.
  intros Hwf Ha Hp Hl Hv. unfold slice_wf in Hwf.
  pose proof (from_to_bytes s pre _ post off 4 Ha Hp (zlen_le_encode 4 v)) as H.
  unfold at32, SliceUint32LE. destruct (go_from s off) as [b| |]; cbn [rbind] in *; try (specialize (H ltac:(unfold scap; lia)); discriminate).
  destruct (go_to b 4) as [r| |]; cbn [rbind] in *; try (specialize (H ltac:(unfold scap; lia)); discriminate).
  specialize (H ltac:(unfold scap; lia)). apply (f_equal (fun x => match x with Ok y => le_decode y | _ => 0 end)) in H. rewrite le_decode_encode in H by exact Hv. rewrite H. reflexivity.
Qed.
Lemma at16_val s pre v post off : slice_wf s ->
  s_arr s = pre ++ le_encode 2 v ++ post -> zlen pre = off -> off <= s_len s -> is_u16 v -> at16 off s = Ok v.
Proof.
  intros Hwf Ha Hp Hl Hv. unfold slice_wf in Hwf.
  pose proof (from_to_bytes s pre _ post off 2 Ha Hp (zlen_le_encode 2 v)) as H.
  unfold at16, SliceUint16LE. destruct (go_from s off) as [b| |]; cbn [rbind] in *; try (specialize (H ltac:(unfold scap; lia)); discriminate).
  destruct (go_to b 2) as [r| |]; cbn [rbind] in *; try (specialize (H ltac:(unfold scap; lia)); discriminate).
  specialize (H ltac:(unfold scap; lia)). apply (f_equal (fun x => match x with Ok y => le_decode y | _ => 0 end)) in H. rewrite le_decode_encode in H by exact Hv. rewrite H. reflexivity.
Qed.
Lemma atUUID_val s pre u post off : slice_wf s ->
  s_arr s = pre ++ u ++ post -> zlen pre = off -> off <= s_len s -> length u = 16%nat -> atUUID off s = Ok u.
Proof.
  intros Hwf Ha Hp Hl Hv. unfold slice_wf in Hwf.
  assert (Hz : zlen u = 16) by (unfold zlen; lia).
  pose proof (from_to_bytes s pre _ post off 16 Ha Hp Hz) as H.
  specialize (H ltac:(unfold scap; lia)).
  unfold atUUID, SliceUUID, UUIDSize. exact H.
Qed.
Lemma at8_val s pre v post off :
  s_arr s = pre ++ le_encode 1 v ++ post -> zlen pre = off -> off < s_len s -> is_u8 v -> at8 off s = Ok v.
Proof.
  intros Ha Hp Hl Hv. unfold at8. pose proof (zlen_nonneg pre).
  rewrite go_index_ok by lia. rewrite Ha. rewrite <- Hp. unfold zlen. rewrite Nat2Z.id, app_nth2 by lia.
  rewrite Nat.sub_diag. cbn [le_encode app nth]. rewrite bz_zb_small; [reflexivity|exact Hv].
Qed.

(** ** field lemmas *)
Lemma f64 s fs i v : carries s fs -> nth_error fs i = Some (I 8 v) -> at64 (sumw (firstn i fs)) s = Ok v.
Proof.
  intros Hc Hn. pose proof Hc as [Hwf _]. destruct (field_split _ _ _ _ Hc Hn) as (pre & post & Ha & Hp & Hl & Hf).
  cbn in Hl. eapply at64_val; eauto; lia.
Qed.
Lemma f32 s fs i v : carries s fs -> nth_error fs i = Some (I 4 v) -> at32 (sumw (firstn i fs)) s = Ok v.
Proof.
  intros Hc Hn. pose proof Hc as [Hwf _]. destruct (field_split _ _ _ _ Hc Hn) as (pre & post & Ha & Hp & Hl & Hf).
  cbn in Hl. eapply at32_val; eauto; lia.
Qed.
Lemma f16 s fs i v : carries s fs -> nth_error fs i = Some (I 2 v) -> at16 (sumw (firstn i fs)) s = Ok v.
Proof.
  intros Hc Hn. pose proof Hc as [Hwf _]. destruct (field_split _ _ _ _ Hc Hn) as (pre & post & Ha & Hp & Hl & Hf).
  cbn in Hl. eapply at16_val; eauto; lia.
Qed.
Lemma f8 s fs i v : carries s fs -> nth_error fs i = Some (I 1 v) -> at8 (sumw (firstn i fs)) s = Ok v.
Proof.
  intros Hc Hn. destruct (field_split _ _ _ _ Hc Hn) as (pre & post & Ha & Hp & Hl & Hf).
  cbn in Hl. eapply at8_val; eauto. lia.
Qed.
Lemma fU s fs i u : carries s fs -> nth_error fs i = Some (Raw 16 u) -> atUUID (sumw (firstn i fs)) s = Ok u.
Proof.
  intros Hc Hn. pose proof Hc as [Hwf _]. destruct (field_split _ _ _ _ Hc Hn) as (pre & post & Ha & Hp & Hl & Hf).
  cbn in Hl. eapply atUUID_val; eauto; lia.
Qed.

(** re-basing a read: x[a:] then offset b *)
Lemma go_from_from s a b : slice_wf s -> 0 <= a <= s_len s -> 0 <= b ->
  (x <- go_from s a ;; go_from x b) = go_from s (a + b).
Proof.
  intros Hwf Ha Hb. unfold slice_wf in Hwf. unfold go_from at 1. rewrite go_slice_ok by (unfold scap; lia).
  cbn [rbind]. unfold go_from; cbn [s_len].
  destruct (Z_le_dec (a + b) (s_len s)) as [Hle|Hgt].
  - rewrite !go_slice_ok; cbn [s_arr s_len]; unfold scap; cbn [s_arr]; rewrite ?zlen_skipn; try lia.
    rewrite skipn_skipn', Z2Nat.inj_add by lia. do 2 f_equal; lia.
  - rewrite !go_slice_panic; [reflexivity| |]; lia.
Qed.
Lemma index_from s a b : slice_wf s -> 0 <= a <= s_len s -> 0 <= b ->
  (x <- go_from s a ;; go_index x b) = go_index s (a + b).
Proof.
  intros Hwf Ha Hb. unfold slice_wf in Hwf. unfold go_from. rewrite go_slice_ok by (unfold scap; lia).
  cbn [rbind]. destruct (Z_lt_dec (a + b) (s_len s)) as [Hl|Hg].
  - rewrite !go_index_ok; cbn [s_arr s_len]; try lia. do 2 f_equal.
    rewrite Z2Nat.inj_add by lia. rewrite nth_skipn'. reflexivity.
  - rewrite !go_index_panic; cbn [s_len]; try lia. reflexivity.
Qed.

(** ** exact outcome of the fixed size reads *)
Lemma from_to_exact s off n : slice_wf s -> 0 <= n ->
  (b <- go_from s off ;; r <- go_to b n ;; Ok (sbytes r)) =
  if (0 <=? off) && (off <=? s_len s) && (off + n <=? scap s)
  then Ok (firstn (Z.to_nat n) (skipn (Z.to_nat off) (s_arr s))) else Panic.
Proof.
  intros Hwf Hn. unfold slice_wf in Hwf. fold (scap s) in Hwf.
  destruct (Z_le_dec 0 off) as [H0|H0];
    [|replace (0 <=? off) with false by lia; unfold go_from; rewrite go_slice_panic by lia; reflexivity].
  replace (0 <=? off) with true by lia. cbn [andb].
  destruct (Z_le_dec off (s_len s)) as [H1|H1];
    [|replace (off <=? s_len s) with false by lia; unfold go_from; rewrite go_slice_panic by lia; reflexivity].
  replace (off <=? s_len s) with true by lia. cbn [andb].
  unfold go_from. rewrite go_slice_ok by lia. cbn [rbind]. unfold go_to.
  assert (Hc : scap (mkSlice (skipn (Z.to_nat off) (s_arr s)) (s_len s - off)) = scap s - off).
  { unfold scap in *; cbn [s_arr]. apply zlen_skipn. lia. }
  destruct (Z_le_dec (off + n) (scap s)) as [H2|H2].
  - replace (off + n <=? scap s) with true by lia. rewrite go_slice_ok by lia.
    cbn [rbind sbytes s_arr s_len]. unfold sbytes; cbn [s_arr s_len]. rewrite Z.sub_0_r. reflexivity.
  - replace (off + n <=? scap s) with false by lia. rewrite go_slice_panic by lia. reflexivity.
Qed.
Lemma rbind_assoc {A B C} (m : Res A) (f : A -> Res B) (g : B -> Res C) :
  rbind (rbind m f) g = rbind m (fun x => rbind (f x) g).
Proof. destruct m; reflexivity. Qed.
Definition readable (off n : Z) (s : slice) : bool :=
  (0 <=? off) && (off <=? s_len s) && (off + n <=? scap s).
Definition bytes_at (off n : Z) (s : slice) : list byte :=
  firstn (Z.to_nat n) (skipn (Z.to_nat off) (s_arr s)).
Lemma readable_iff off n s : readable off n s = true <-> 0 <= off <= s_len s /\ off + n <= scap s.
Proof. unfold readable. rewrite !andb_true_iff, !Z.leb_le. lia. Qed.
Lemma at16_exact s off : slice_wf s ->
  at16 off s = if readable off 2 s then Ok (le_decode (bytes_at off 2 s)) else Panic.
Proof.
  intros Hwf. pose proof (from_to_exact s off 2 Hwf ltac:(lia)) as H.
  unfold at16, SliceUint16LE. apply (f_equal (fun m => rbind m (fun l => Ok (le_decode l)))) in H.
  rewrite rbind_assoc in H. transitivity (x <- go_from s off ;; z <- (r <- go_to x 2 ;; Ok (sbytes r)) ;; Ok (le_decode z)).
  - destruct (go_from s off) as [b| |]; cbn [rbind]; [|reflexivity..]. destruct (go_to b 2); reflexivity.
  - rewrite H. unfold readable, bytes_at. destruct (_ && _ && _); reflexivity.
Qed.
Lemma at32_exact s off : slice_wf s ->
  at32 off s = if readable off 4 s then Ok (le_decode (bytes_at off 4 s)) else Panic.
Proof.
  intros Hwf. pose proof (from_to_exact s off 4 Hwf ltac:(lia)) as H.
  unfold at32, SliceUint32LE. apply (f_equal (fun m => rbind m (fun l => Ok (le_decode l)))) in H.
  rewrite rbind_assoc in H. transitivity (x <- go_from s off ;; z <- (r <- go_to x 4 ;; Ok (sbytes r)) ;; Ok (le_decode z)).
  - destruct (go_from s off) as [b| |]; cbn [rbind]; [|reflexivity..]. destruct (go_to b 4); reflexivity.
  - rewrite H. unfold readable, bytes_at. destruct (_ && _ && _); reflexivity.
Qed.
Lemma at64_exact s off : slice_wf s ->
  at64 off s = if readable off 8 s then Ok (le_decode (bytes_at off 8 s)) else Panic.
Proof.
  intros Hwf. pose proof (from_to_exact s off 8 Hwf ltac:(lia)) as H.
  unfold at64, SliceUint64LE. apply (f_equal (fun m => rbind m (fun l => Ok (le_decode l)))) in H.
  rewrite rbind_assoc in H. transitivity (x <- go_from s off ;; z <- (r <- go_to x 8 ;; Ok (sbytes r)) ;; Ok (le_decode z)).
  - destruct (go_from s off) as [b| |]; cbn [rbind]; [|reflexivity..]. destruct (go_to b 8); reflexivity.
  - rewrite H. unfold readable, bytes_at. destruct (_ && _ && _); reflexivity.
Qed.
Lemma atUUID_exact s off : slice_wf s ->
  atUUID off s = if readable off 16 s then Ok (bytes_at off 16 s) else Panic.
Proof. intros Hwf. exact (from_to_exact s off 16 Hwf ltac:(lia)). Qed.
Lemma at8_exact s off : at8 off s =
  if (0 <=? off) && (off <? s_len s) then Ok (bz (nth (Z.to_nat off) (s_arr s) x00)) else Panic.
Proof. reflexivity. Qed.

(** ** keys and times *)
Lemma atKey_parts s off : slice_wf s -> 0 <= off <= s_len s ->
  atKey off s = (o <- at64 off s ;; t <- at8 (off + 8) s ;; f <- at64 (off + 9) s ;; Ok (mkKey o t f)).
Proof.
  intros Hwf Ho. unfold atKey, SliceKey.
  pose proof (index_from s off 8 Hwf Ho ltac:(lia)) as H8.
  pose proof (go_from_from s off 9 Hwf Ho ltac:(lia)) as H9.
  unfold at64 at 1. destruct (go_from s off) as [b| |]; cbn [rbind] in *; [|reflexivity..].
  destruct (SliceUint64LE b) as [o| |]; cbn [rbind]; [|reflexivity..].
  unfold at8. rewrite <- H8. destruct (go_index b 8) as [t| |]; cbn [rbind]; [|reflexivity..].
  unfold at64. rewrite <- H9. destruct (go_from b 9) as [b9| |]; cbn [rbind]; reflexivity.
Qed.
Lemma atTime_parts s off : slice_wf s -> 0 <= off <= s_len s ->
  atTime off s = (a <- at64 off s ;; n <- at32 (off + 8) s ;; Ok (time_unix (i64 a) n)).
Proof.
  intros Hwf Ho. unfold atTime, SliceTimeLE.
  pose proof (go_from_from s off 8 Hwf Ho ltac:(lia)) as H8.
  unfold at64 at 1. destruct (go_from s off) as [b| |]; cbn [rbind] in *; [|reflexivity..].
  destruct (SliceUint64LE b) as [o| |]; cbn [rbind]; [|reflexivity..].
  unfold at32. rewrite <- H8. destruct (go_from b 8) as [b9| |]; cbn [rbind]; reflexivity.
Qed.
Lemma firstn_S_nth {A} (fs : list A) i f : nth_error fs i = Some f -> firstn (S i) fs = firstn i fs ++ [f].
Proof.
  revert i; induction fs as [|x fs IH]; intros [|i] H; cbn in *; try discriminate.
  - congruence.
  - f_equal. apply IH; exact H.
Qed.
Lemma sumw_S fs i f : nth_error fs i = Some f -> sumw (firstn (S i) fs) = sumw (firstn i fs) + fw f.
Proof. intros H. rewrite (firstn_S_nth _ _ _ H), sumw_app. cbn [sumw]. lia. Qed.
Lemma field_off s fs i f : carries s fs -> nth_error fs i = Some f ->
  0 <= sumw (firstn i fs) /\ sumw (firstn i fs) + fw f <= s_len s.
Proof.
  intros Hc Hn. destruct (field_split _ _ _ _ Hc Hn) as (pre & post & Ha & Hp & Hl & Hf).
  split; [apply sumw_nonneg | lia].
Qed.
Lemma fKey s fs i o t f : carries s fs ->
  nth_error fs i = Some (I 8 o) -> nth_error fs (S i) = Some (I 1 t) -> nth_error fs (S (S i)) = Some (I 8 f) ->
  atKey (sumw (firstn i fs)) s = Ok (mkKey o t f).
Proof.
  intros Hc H1 H2 H3. pose proof Hc as [Hwf _]. destruct (field_off _ _ _ _ Hc H1) as [Ha Hb]. cbn [fw] in Hb.
  rewrite atKey_parts by (try exact Hwf; lia).
  rewrite (f64 _ _ _ _ Hc H1). cbn [rbind].
  pose proof (f8 _ _ _ _ Hc H2) as E2. rewrite (sumw_S _ _ _ H1) in E2. cbn [fw] in E2.
  change (Z.of_nat 8) with 8 in E2. rewrite E2. cbn [rbind].
  pose proof (f64 _ _ _ _ Hc H3) as E3. rewrite (sumw_S _ _ _ H2), (sumw_S _ _ _ H1) in E3. cbn [fw] in E3.
  replace (sumw (firstn i fs) + Z.of_nat 8 + Z.of_nat 1) with (sumw (firstn i fs) + 9) in E3 by lia.
  rewrite E3. reflexivity.
Qed.
Lemma i64_s64 x : - 2^63 <= x < 2^63 -> i64 (s64 x) = x.
Proof.
  intros H. unfold i64, s64. rewrite Zplus_mod_idemp_l. rewrite Z.mod_small by lia. lia.
Qed.
Lemma fTime s fs i t : carries s fs -> ts_ok t ->
  nth_error fs i = Some (I 8 (s64 (ts_sec t))) -> nth_error fs (S i) = Some (I 4 (ts_nsec t)) ->
  atTime (sumw (firstn i fs)) s = Ok (ts_sec t, ts_nsec t).
Proof.
  intros Hc [Hs Hn] H1 H2. pose proof Hc as [Hwf _]. destruct (field_off _ _ _ _ Hc H1) as [Ha Hb]. cbn [fw] in Hb.
  rewrite atTime_parts by (try exact Hwf; lia).
  rewrite (f64 _ _ _ _ Hc H1). cbn [rbind].
  pose proof (f32 _ _ _ _ Hc H2) as E2. rewrite (sumw_S _ _ _ H1) in E2. cbn [fw] in E2.
  change (Z.of_nat 8) with 8 in E2. rewrite E2. cbn [rbind].
  rewrite i64_s64 by exact Hs. unfold time_unix.
  rewrite Z.div_small, Z.mod_small by lia. rewrite Z.add_0_r.
  unfold i64. rewrite Z.mod_small by lia. do 2 f_equal. lia.
Qed.

(** ** names and trailing byte strings *)
Lemma slice_field s pre mid post lo hi :
  s_arr s = pre ++ mid ++ post -> zlen pre = lo -> hi = lo + zlen mid ->
  (r <- go_slice s lo hi ;; Ok (sbytes r)) = Ok mid.
Proof.
  intros Ha Hp ->. pose proof (zlen_nonneg pre). pose proof (zlen_nonneg mid). pose proof (zlen_nonneg post).
  rewrite go_slice_ok; [|lia|unfold scap; rewrite Ha, !zlen_app; lia].
  cbn [rbind]. unfold sbytes; cbn [s_arr s_len]. rewrite Ha, skipn_zlen by exact Hp.
  rewrite firstn_zlen by lia. reflexivity.
Qed.
Lemma fRaw s fs i w bs : carries s fs -> nth_error fs i = Some (Raw w bs) ->
  (r <- go_slice s (sumw (firstn i fs)) (sumw (firstn i fs) + zlen bs) ;; Ok (sbytes r)) = Ok bs.
Proof.
  intros Hc Hn. destruct (field_split _ _ _ _ Hc Hn) as (pre & post & Ha & Hp & Hl & Hf).
  eapply slice_field; [exact Ha | exact Hp | reflexivity].
Qed.

(** deciding [fits] (for concrete examples) *)
Definition fit1b (f : fld) : bool :=
  match f with I w v => (0 <=? v) && (v <? 256 ^ Z.of_nat w) | Raw w bs => Nat.eqb (length bs) w end.
Lemma fits_b fs : forallb fit1b fs = true -> fits fs.
Proof.
  intros H. apply Forall_forall. intros f Hf. rewrite forallb_forall in H. specialize (H f Hf).
  destruct f as [w v|w bs]; cbn [fit1b fit1] in *; [lia|apply Nat.eqb_eq; exact H].
Qed.

(** Proofs about whole structures (Layout.v against SpecLayout.v). *)
From Verif Require Import Go GoProofs Layout SpecLayout LayoutProofs LeafProofs.
From Coq Require Import ZifyBool ZifyNat ZifyN.
Ltac Zify.zify_post_hook ::= Z.div_mod_to_equations.

(** try every field index *)
Ltac fld_at H n :=
  first [ exact (f64 _ _ n _ H eq_refl) | exact (f32 _ _ n _ H eq_refl) | exact (f16 _ _ n _ H eq_refl)
        | exact (f8 _ _ n _ H eq_refl) | exact (fU _ _ n _ H eq_refl)
        | exact (fKey _ _ n _ _ _ H eq_refl eq_refl eq_refl)
        | refine (fTime _ _ n _ H _ eq_refl eq_refl); assumption ].
Ltac fld_upto H n m :=
  match n with
  | m => fail 1 "no field"
  | _ => first [ fld_at H n | let n' := eval cbv in (S n) in fld_upto H n' m ]
  end.
Ltac fields H m := repeat match goal with |- _ /\ _ => split end; fld_upto H O m.

Lemma carries_from s a b : carries s (a ++ b) ->
  exists s', go_from s (sumw a) = Ok s' /\ carries s' b.
Proof.
  intros (Hwf & Hfit & rest & Ha & Hl). apply fits_app in Hfit as [Fa Fb].
  rewrite ser_app, zlen_app in Hl. rewrite (zlen_ser a Fa) in Hl. unfold slice_wf in Hwf.
  pose proof (sumw_nonneg a). pose proof (zlen_nonneg (ser b)).
  unfold go_from. rewrite go_slice_ok by (unfold scap; lia).
  eexists; split; [reflexivity|]. split; [|split; [exact Fb|]].
  - unfold slice_wf; cbn [s_arr s_len]. rewrite zlen_skipn by lia. lia.
  - exists rest. cbn [s_arr s_len]. split; [|lia].
    rewrite Ha, ser_app, <- app_assoc. apply skipn_zlen, zlen_ser, Fa.
Qed.
Lemma carries_prefix s a b : carries s (a ++ b) -> carries s a.
Proof.
  intros (Hwf & Hfit & rest & Ha & Hl). apply fits_app in Hfit as [Fa Fb].
  rewrite ser_app, zlen_app in Hl. pose proof (zlen_nonneg (ser b)).
  split; [exact Hwf|split; [exact Fa|]]. exists (ser b ++ rest). split; [|lia].
  rewrite Ha, ser_app, <- app_assoc. reflexivity.
Qed.
Lemma sumw_stripes l : sumw (flat_map stripe_fields l) = 32 * zlen l.
Proof.
  induction l as [|x l IH]; [reflexivity|]. cbn [flat_map]. rewrite sumw_app, IH, zlen_cons.
  change (sumw (stripe_fields x)) with 32. lia.
Qed.
Lemma chunk_stripe s c i st : carries s (chunk_fields c) -> zlen (ser (chunk_fields c)) < 65536 ->
  nth_error (ch_stripes c) i = Some st ->
  exists sub, Chunk_Stripe s (Z.of_nat i) = Ok sub /\ carries sub (stripe_fields st).
Proof.
  intros Hc Hz Hn. pose proof (nth_split_fields _ _ _ Hn) as Hs.
  assert (Hlen : zlen (ch_stripes c) * 32 < 65536 - 48).
  { rewrite zlen_ser in Hz by (destruct Hc as (_ & Hf & _); exact Hf).
    unfold chunk_fields in Hz. rewrite sumw_app, sumw_stripes in Hz.
    change (sumw (chunk_head_fields c)) with 48 in Hz. lia. }
  assert (Hi : (i < length (ch_stripes c))%nat) by (apply nth_error_Some; congruence).
  assert (Hc2 : carries s ((chunk_head_fields c ++ flat_map stripe_fields (firstn i (ch_stripes c))) ++
      stripe_fields st ++ flat_map stripe_fields (skipn (S i) (ch_stripes c)))).
  { replace (_ ++ _) with (chunk_fields c); [exact Hc|]. unfold chunk_fields at 1.
    rewrite Hs at 1. rewrite flat_map_app. cbn [flat_map]. rewrite <- !app_assoc. reflexivity. }
  destruct (carries_from _ _ _ Hc2) as (sub & Hf & Hcs).
  exists sub. split; [|exact (carries_prefix _ _ _ Hcs)].
  rewrite sumw_app, sumw_stripes in Hf. change (sumw (chunk_head_fields c)) with 48 in Hf.
  unfold zlen in *. rewrite firstn_length_le in Hf by lia.
  unfold Chunk_Stripe. rewrite <- Hf. f_equal. change chunkStripes with 48. change stripeEnd with 32.
  rewrite !u16_small by (unfold is_u16; rewrite ?u16_small; unfold is_u16; lia). lia.
Qed.

(** names *)
Lemma name_field s fs i k lo no name : carries s fs ->
  nth_error fs i = Some (I 2 (zlen name)) -> nth_error fs k = Some (Raw (length name) name) ->
  lo = sumw (firstn i fs) -> no = sumw (firstn k fs) ->
  name_at lo no s = Ok (firstn 255 name).
Proof.
  intros Hc Hi Hk -> ->. unfold name_at. rewrite (f16 _ _ _ _ Hc Hi). cbn [rbind].
  destruct (field_split _ _ _ _ Hc Hk) as (pre & post & Ha & Hp & Hl & Hf). cbn [ser1] in Ha.
  apply (slice_field s pre (firstn 255 name) (skipn 255 name ++ post)).
  - rewrite Ha. rewrite (app_assoc (firstn 255 name)), firstn_skipn. reflexivity.
  - exact Hp.
  - unfold clampName. destruct (255 <? zlen name) eqn:E; unfold zlen in *; rewrite firstn_length; lia.
Qed.
Lemma name_at_bounds lo no l n : name_at lo no (sl l) = Ok n ->
  zlen n <= 255 /\ exists pre post, l = pre ++ n ++ post /\ zlen pre = no.
Proof.
  unfold name_at. intros H. apply rbind_ok in H as (ln & H1 & H). apply rbind_ok in H as (r & H2 & H).
  injection H as <-.
  assert (Hln : 0 <= ln).
  { unfold at16 in H1. apply rbind_ok in H1 as (b & _ & H1). unfold SliceUint16LE in H1.
    apply rbind_ok in H1 as (x & _ & H1). injection H1 as <-. apply le_decode_range. }
  pose proof (go_slice_wf _ _ _ _ H2) as Hw. apply go_slice_inv in H2 as (Ha & Hb & ->).
  rewrite scap_sl in Hb. split.
  - rewrite zlen_sbytes by exact Hw. cbn [s_len]. unfold clampName. destruct (255 <? ln) eqn:E; lia.
  - unfold sbytes; cbn [s_arr s_len sl].
    exists (firstn (Z.to_nat no) l), (skipn (Z.to_nat (no + clampName ln - no)) (skipn (Z.to_nat no) l)).
    rewrite firstn_skipn, firstn_skipn. split; [reflexivity|]. apply zlen_firstn. lia.
Qed.

Lemma dir_data s d : carries s (dir_item_fields d) ->
  30 + zlen (di_name d) + zlen (di_data d) < 65536 -> DirItem_Data s = Ok (di_data d).
Proof.
  intros Hc Hz. pose proof (zlen_nonneg (di_name d)). pose proof (zlen_nonneg (di_data d)).
  assert (H5 : DirItem_NameLen s = Ok (zlen (di_name d))) by exact (f16 _ _ 5 _ Hc eq_refl).
  assert (H4 : DirItem_DataLen s = Ok (zlen (di_data d))) by exact (f16 _ _ 4 _ Hc eq_refl).
  unfold DirItem_Data. rewrite H5. cbn [rbind]. rewrite H4. cbn [rbind].
  change dirItemName with 30.
  rewrite (u16_small (30 + zlen (di_name d))) by (unfold is_u16; lia).
  rewrite (u16_small (30 + _ + _)) by (unfold is_u16; lia).
  pose proof (fRaw _ _ 8 _ _ Hc eq_refl) as H8.
  assert (E : sumw (firstn 8 (dir_item_fields d)) = 30 + zlen (di_name d)) 
    by (change (8+(1+(8+(8+(2+(2+(1+(zlen (di_name d) + 0))))))) = 30 + zlen (di_name d)); lia).
  rewrite E in H8. exact H8.
Qed.

Lemma inline_data s e : carries s (fe_inline_fields e) ->
  fe_ram_bytes (fi_head e) = zlen (fi_data e) -> zlen (fi_data e) <= 16384 ->
  FileExtentItem_Data s = Ok (fi_data e).
Proof.
  intros Hc Hr Hz. pose proof (zlen_nonneg (fi_data e)).
  assert (H1 : FileExtentItem_RAMBytes s = Ok (fe_ram_bytes (fi_head e))) by exact (f64 _ _ 1 _ Hc eq_refl).
  unfold FileExtentItem_Data. rewrite H1. cbn [rbind]. rewrite Hr, i64_small by lia.
  change DefaultBlockSize with 16384. replace (16384 <? zlen (fi_data e)) with false by lia.
  exact (fRaw _ _ 6 _ _ Hc eq_refl).
Qed.

(** leaf data stays inside *)
Lemma Leaf_Data_bounds l i d : 0 <= i -> Leaf_Data (sl l) i = Ok d ->
  exists it off sz pre post, Leaf_Item (sl l) i = Ok it /\ Item_Offset it = Ok off /\ Item_Size it = Ok sz /\
    l = pre ++ sbytes d ++ post /\ zlen (sbytes d) <= sz /\ zlen pre = (101 + off) mod 2^32.
Proof.
  intros Hi H. unfold Leaf_Data in H.
  apply rbind_ok in H as (it & H1 & H). apply rbind_ok in H as (off & H2 & H).
  apply rbind_ok in H as (sz & H3 & H).
  assert (Hsz : 0 <= sz).
  { unfold Item_Size, at32 in H3. apply rbind_ok in H3 as (b & _ & H3). unfold SliceUint32LE in H3.
    apply rbind_ok in H3 as (x & _ & H3). injection H3 as <-. apply le_decode_range. }
  pose proof (go_slice_wf _ _ _ _ H) as Hw.
  apply go_slice_inv in H as (Ha & Hb & ->). rewrite scap_sl in Hb. change HeaderLen with 101 in *.
  set (o := u32 (101 + off)) in *.
  assert (Ho : is_u32 o) by apply u32_range.
  set (e := if u32 (s_len (sl l)) <? u32 (o + sz) then u32 (s_len (sl l)) else u32 (o + sz)) in *.
  assert (He : e <= u32 (o + sz)) by (unfold e; destruct (_ <? _) eqn:E; lia).
  exists it, off, sz, (firstn (Z.to_nat o) l), (skipn (Z.to_nat (e - o)) (skipn (Z.to_nat o) l)).
  split; [exact H1|]. split; [exact H2|]. split; [exact H3|]. split; [|split].
  - unfold sbytes; cbn [s_arr s_len sl]. rewrite firstn_skipn, firstn_skipn. reflexivity.
  - rewrite zlen_sbytes by exact Hw. cbn [s_len].
    assert (u32 (o + sz) <= o + sz) by (unfold u32; unfold is_u32 in Ho; apply Z.mod_le; lia). lia.
  - rewrite zlen_firstn by lia. reflexivity.
Qed.
Lemma Leaf_Items_panic_iff l : 101 <= zlen l < 2^32 ->
  Leaf_Items (sl l) = Panic <-> (exists n, Header_NrItems (sl l) = Ok n /\ (zlen l - 101) / 25 < n).
Proof.
  intros Hz. pose proof (sl_wf l) as Hwf.
  assert (Hn : exists n, Header_NrItems (sl l) = Ok n /\ 0 <= n).
  { unfold Header_NrItems. rewrite at32_exact by exact Hwf.
    replace (readable _ 4 (sl l)) with true; [eexists; split; [reflexivity|apply le_decode_range]|].
    symmetry; apply readable_iff. rewrite scap_sl. cbn [sl s_len]. change headerNrItems with 96. lia. }
  destruct Hn as (n & Hn & Hn0). unfold Leaf_Items. rewrite (Leaf_Len_ok _ _ Hn) by (rewrite scap_sl; lia).
  cbn [rbind]. rewrite scap_sl. split.
  - intros H. exists n. split; [exact Hn|].
    destruct (Z_lt_dec ((zlen l - 101) / 25) n) as [|Hge]; [assumption|exfalso].
    destruct (Leaf_Items_from_ok (sl l) (Z.to_nat (Z.min n (zlen l / 25))) 0 Hwf ltac:(lia)) as (r & Hr & _).
    { rewrite scap_sl. lia. }
    rewrite Hr in H. discriminate.
  - intros (n' & Hn' & Hlt). assert (n' = n) by congruence. subst n'.
    apply Leaf_Items_from_panic; rewrite ?scap_sl; try assumption; lia.
Qed.
Lemma Leaf_Items_all l : 101 <= zlen l < 2^32 ->
  forall n, Header_NrItems (sl l) = Ok n -> n <= (zlen l - 101) / 25 ->
  exists r, Leaf_Items (sl l) = Ok r /\ zlen r = n /\
    forall j, 0 <= j < n -> Leaf_Item (sl l) j = Ok (nth (Z.to_nat j) r (sl [])).
Proof.
  intros Hz n Hn Hle. pose proof (sl_wf l) as Hwf.
  assert (Hn0 : 0 <= n).
  { unfold Header_NrItems, at32 in Hn. apply rbind_ok in Hn as (b & _ & Hn). unfold SliceUint32LE in Hn.
    apply rbind_ok in Hn as (x & _ & Hn). injection Hn as <-. apply le_decode_range. }
  unfold Leaf_Items. rewrite (Leaf_Len_ok _ _ Hn) by (rewrite scap_sl; lia).
  cbn [rbind]. rewrite scap_sl.
  destruct (Leaf_Items_from_ok (sl l) (Z.to_nat (Z.min n (zlen l / 25))) 0 Hwf ltac:(lia)) as (r & Hr & HL & Hj).
  { rewrite scap_sl. lia. }
  exists r. split; [exact Hr|]. split; [unfold zlen in *; lia|].
  intros j Hjn. rewrite <- Hj by lia. f_equal. lia.
Qed.

(** exact outcomes on slices whose capacity is their length *)
Definition dropv {A} (m : Res A) : Res unit := rbind m (fun _ => Ok tt).
Lemma at64_sl off l : 0 <= off -> dropv (at64 off (sl l)) = if off + 8 <=? zlen l then Ok tt else Panic.
Proof.
  intros H. unfold dropv. rewrite at64_exact by apply sl_wf. unfold readable. cbn [sl s_len]. rewrite scap_sl.
  destruct (off + 8 <=? zlen l) eqn:E.
  - replace ((0 <=? off) && (off <=? zlen l) && true) with true by lia. reflexivity.
  - rewrite andb_false_r. reflexivity.
Qed.
Lemma at32_sl off l : 0 <= off -> dropv (at32 off (sl l)) = if off + 4 <=? zlen l then Ok tt else Panic.
Proof.
  intros H. unfold dropv. rewrite at32_exact by apply sl_wf. unfold readable. cbn [sl s_len]. rewrite scap_sl.
  destruct (off + 4 <=? zlen l) eqn:E.
  - replace ((0 <=? off) && (off <=? zlen l) && true) with true by lia. reflexivity.
  - rewrite andb_false_r. reflexivity.
Qed.
Lemma at16_sl off l : 0 <= off -> dropv (at16 off (sl l)) = if off + 2 <=? zlen l then Ok tt else Panic.
Proof.
  intros H. unfold dropv. rewrite at16_exact by apply sl_wf. unfold readable. cbn [sl s_len]. rewrite scap_sl.
  destruct (off + 2 <=? zlen l) eqn:E.
  - replace ((0 <=? off) && (off <=? zlen l) && true) with true by lia. reflexivity.
  - rewrite andb_false_r. reflexivity.
Qed.
Lemma atUUID_sl off l : 0 <= off -> dropv (atUUID off (sl l)) = if off + 16 <=? zlen l then Ok tt else Panic.
Proof.
  intros H. unfold dropv. rewrite atUUID_exact by apply sl_wf. unfold readable. cbn [sl s_len]. rewrite scap_sl.
  destruct (off + 16 <=? zlen l) eqn:E.
  - replace ((0 <=? off) && (off <=? zlen l) && true) with true by lia. reflexivity.
  - rewrite andb_false_r. reflexivity.
Qed.
Lemma at8_sl off l : 0 <= off -> dropv (at8 off (sl l)) = if off + 1 <=? zlen l then Ok tt else Panic.
Proof.
  intros H. unfold dropv. rewrite at8_exact. cbn [sl s_len].
  destruct (off + 1 <=? zlen l) eqn:E.
  - replace ((0 <=? off) && (off <? zlen l)) with true by lia. reflexivity.
  - replace ((0 <=? off) && (off <? zlen l)) with false by lia. reflexivity.
Qed.
Lemma dropv_bind {A B C} (m : Res A) (f : A -> Res B) (g : B -> C) :
  dropv (rbind m (fun a => rbind (f a) (fun b => Ok (g b)))) = rbind m (fun a => dropv (f a)).
Proof. destruct m as [a| |]; cbn; try reflexivity. destruct (f a); reflexivity. Qed.
Lemma atKey_sl off l : 0 <= off -> dropv (atKey off (sl l)) = if off + 17 <=? zlen l then Ok tt else Panic.
Proof.
  intros H. destruct (Z_le_dec off (zlen l)) as [Hl|Hl].
  - rewrite atKey_parts by (try apply sl_wf; cbn [sl s_len]; lia).
    pose proof (at64_sl off l H) as A. pose proof (at8_sl (off + 8) l ltac:(lia)) as B.
    pose proof (at64_sl (off + 9) l ltac:(lia)) as C. unfold dropv in *.
    destruct (at64 off (sl l)), (at8 (off + 8) (sl l)), (at64 (off + 9) (sl l)); cbn [rbind] in *;
    destruct (off + 17 <=? zlen l) eqn:E; destruct (off + 8 <=? zlen l) eqn:E1;
    destruct (off + 8 + 1 <=? zlen l) eqn:E2; destruct (off + 9 + 8 <=? zlen l) eqn:E3; try reflexivity; try discriminate; exfalso; lia.
  - unfold atKey, go_from, dropv. rewrite go_slice_panic by (cbn [sl s_len]; lia). cbn [rbind].
    replace (off + 17 <=? zlen l) with false by lia. reflexivity.
Qed.
Lemma atTime_sl off l : 0 <= off -> dropv (atTime off (sl l)) = if off + 12 <=? zlen l then Ok tt else Panic.
Proof.
  intros H. destruct (Z_le_dec off (zlen l)) as [Hl|Hl].
  - rewrite atTime_parts by (try apply sl_wf; cbn [sl s_len]; lia).
    pose proof (at64_sl off l H) as A.
    pose proof (at32_sl (off + 8) l ltac:(lia)) as C. unfold dropv in *.
    destruct (at64 off (sl l)), (at32 (off + 8) (sl l)); cbn [rbind] in *;
    destruct (off + 12 <=? zlen l) eqn:E; destruct (off + 8 <=? zlen l) eqn:E1;
    destruct (off + 8 + 4 <=? zlen l) eqn:E3; try reflexivity; try discriminate; exfalso; lia.
  - unfold atTime, go_from, dropv. rewrite go_slice_panic by (cbn [sl s_len]; lia). cbn [rbind].
    replace (off + 12 <=? zlen l) with false by lia. reflexivity.
Qed.

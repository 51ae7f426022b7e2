(** Property theorems C16, C24-C27: inserts, durability, opening, read-only. *)
From Verif Require Import Go GoProofs Layout LayoutProofs SpecLayout KeyFmt KeyProofs Bolt Store StoreProofs SpecStore RangeProofs PropsKey PropsStore Session.
From Coq Require Import ZifyBool ZifyNat ZifyN.
Ltac Zify.zify_post_hook ::= Z.div_mod_to_equations.

(** ** C16 *)
Definition wf_ins (i : insertion) : Prop := wf_tuple (i_owner i) (i_key i) (i_gen i) /\ newIndexKey (i_owner i) (i_key i) (i_gen i) <> metadataKey.
Definition same_tuple (i : insertion) (o : Z) (k : Key) (g : Z) : Prop := i_owner i = o /\ i_key i = k /\ i_gen i = g.
Lemma go_copy_all dst src : length src = length dst -> go_copy dst src = src.
Proof. intros H. unfold go_copy. rewrite <- H, firstn_all. rewrite skipn_all2 by lia. apply app_nil_r. Qed.
Lemma insert_value_25 item data : length item = 25%nat -> insert_value item data = item ++ data.
Proof.
  intros H. unfold insert_value. change (Z.to_nat ItemLen) with 25%nat.
  assert (E : go_copy (repeat x00 (25 + length data)) item = item ++ repeat x00 (length data)).
  { unfold go_copy. rewrite repeat_length, firstn_all2, H by lia. reflexivity. }
  rewrite E, firstn_app, skipn_app, H. change (25 - 25)%nat with 0%nat. rewrite firstn_all2, skipn_all2 by lia.
  cbn [firstn skipn app]. rewrite app_nil_r, go_copy_all; [reflexivity|]. rewrite repeat_length. reflexivity.
Qed.
Lemma put_opened b k v : opened b -> length k = 33%nat -> k <> metadataKey -> opened (put b k v).
Proof.
  intros [W [m Hm]] Hk Hne. destruct (put_spec b k v W Hk) as [W' HI]. split; [exact W'|]. exists m. apply HI. right. split; [exact Hm|].
  cbn [fst]. congruence.
Qed.
Lemma puts_opened is b : opened b -> Forall wf_ins is -> opened (fold_left put_ins is b).
Proof.
  revert b; induction is as [|i is IH]; intros b Op HF; [exact Op|]. inversion HF as [|? ? [_ Hne] HF']; subst.
  cbn [fold_left]. apply IH; [|exact HF']. apply put_opened; [exact Op|apply newIndexKey_length|exact Hne].
Qed.
Lemma stored_after is : forall b o k g v, wf_bucket b -> Forall wf_ins is -> wf_tuple o k g ->
  stored (fold_left put_ins is b) o k g v <->
  (exists a i c, is = a ++ i :: c /\ same_tuple i o k g /\ v = insert_value (i_item i) (i_data i) /\ (forall j, In j c -> ~ same_tuple j o k g)) \/
  (stored b o k g v /\ forall j, In j is -> ~ same_tuple j o k g).
Proof.
  induction is as [|i is IH]; intros b o k g v W HF WT; cbn [fold_left].
  - split.
    + intros H. right. split; [exact H|intros j []].
    + intros [(a & i & c & H & _)|[H _]]; [destruct a; discriminate|exact H].
  - inversion HF as [|? ? Hi HF']; subst. destruct Hi as [WTi Hne].
    destruct (put_spec b (newIndexKey (i_owner i) (i_key i) (i_gen i)) (insert_value (i_item i) (i_data i)) W (newIndexKey_length _ _ _)) as [W' HI].
    fold (put_ins b i) in W', HI. rewrite (IH (put_ins b i) o k g v W' HF' WT).
    assert (Hp : stored (put_ins b i) o k g v <-> (same_tuple i o k g /\ v = insert_value (i_item i) (i_data i)) \/ (stored b o k g v /\ ~ same_tuple i o k g)).
    { unfold stored. rewrite HI. cbn [fst]. split.
      - intros [HH|[H1 H2]].
        + pose proof (f_equal fst HH) as H1; pose proof (f_equal snd HH) as H2; cbn [fst snd] in H1, H2. left. split; [|exact H2]. apply newIndexKey_inj in H1 as (A & B & C); try assumption. unfold same_tuple. auto.
        + right. split; [exact H1|]. intros (A & B & C). apply H2. congruence.
      - intros [[(A & B & C) ->]|[H1 H2]].
        + left. congruence.
        + right. split; [exact H1|]. intros E. apply newIndexKey_inj in E as (A & B & C); try assumption. apply H2. unfold same_tuple; auto. }
    split.
    + intros [(a & j & c & -> & H1 & H2 & H3)|[H1 H2]].
      * left. exists (i :: a), j, c. split; [reflexivity|auto].
      * apply Hp in H1 as [[H1 ->]|[H1 H3]].
        -- left. exists [], i, is. split; [reflexivity|auto].
        -- right. split; [exact H1|]. intros j [<-|Hj]; [exact H3|exact (H2 j Hj)].
    + intros [(a & j & c & E & H1 & H2 & H3)|[H1 H2]].
      * destruct a as [|a0 a]; cbn [app] in E; injection E as <- E.
        -- subst c. right. split; [apply Hp; left; auto|exact H3].
        -- left. exists a, j, c. auto.
      * right. split; [apply Hp; right; split; [exact H1|apply H2; left; reflexivity]|intros j Hj; apply H2; right; exact Hj].
Qed.
(** the last insert for (owner, key, generation) is what a lookup at that
    generation returns, after any history on any opened index *)
Theorem C16_last_insert : forall b hist a i c o k g,
  opened b -> Forall wf_ins hist -> hist = a ++ i :: c -> same_tuple i o k g ->
  (forall j, In j c -> ~ same_tuple j o k g) ->
  ~ (o = 2^64 - 1 /\ KType k = 255 /\ 2^64 - 256 < ObjectID k) ->
  FindItem (fold_left put_ins hist b) g o k = Ok (Some (insert_value (i_item i) (i_data i))).
Proof.
  intros b hist a i c o k g Op HF Hh Hs Hlast Hno.
  assert (WT : wf_tuple o k g).
  { rewrite Forall_forall in HF. destruct (HF i) as [WT _]; [rewrite Hh; apply in_or_app; right; left; reflexivity|].
    destruct Hs as (<- & <- & <-). exact WT. }
  pose proof (puts_opened hist b Op HF) as Op'. pose proof WT as (Ho & Hk & Hg).
  assert (Hst : stored (fold_left put_ins hist b) o k g (insert_value (i_item i) (i_data i))).
  { apply stored_after; [apply Op|exact HF|exact WT|]. left. exists a, i, c. auto. }
  destruct (C17_selected_partial _ g o k Op' Hk Ho Hg Hno) as [(g' & v & HFi & Hst' & Hg' & Hsel)|[_ Hnp]].
  - assert (g' = g).
    { destruct Hsel as [[H1 H2]|[H1 H2]]; [specialize (H2 g _ Hg Hst (Z.le_refl _)); lia|specialize (H2 g _ Hg Hst); lia]. }
    subst g'. rewrite (key_unique _ _ _ _ (proj1 Op') Hst' Hst) in HFi. exact HFi.
  - exfalso. apply Hnp. split; [exact Hk|eauto].
Qed.
(** header and data come back as given *)
Theorem C16_header_and_data : forall key off data, fits (key_fields key ++ [I 4 off; I 4 (zlen data)]) -> zlen data < 2^32 - 25 ->
  let item := ser (item_fields {| it_key := key; it_offset := off; it_size := zlen data |}) in
  insert_value item data = item ++ data /\
  exists d, valueData (insert_value item data) = Ok d /\ sbytes d = data.
Proof.
  intros key off data Hf Hz item.
  assert (L : length item = 25%nat).
  { assert (zlen item = 25); [|unfold zlen in *; lia]. unfold item. rewrite zlen_ser by exact Hf. reflexivity. }
  assert (E : insert_value item data = item ++ data) by (apply insert_value_25; exact L). split; [exact E|]. rewrite E.
  unfold valueData, Item_Data.
  assert (HS : Item_Size (sl (item ++ data)) = Ok (zlen data)).
  { unfold Item_Size. apply (at32_val (sl (item ++ data)) (ser (key_fields key ++ [I 4 off])) (zlen data) data itemSize (sl_wf _)).
    - cbn [sl s_arr]. unfold item, item_fields. cbn [it_key it_offset it_size].
      replace (key_fields key ++ [I 4 off; I 4 (zlen data)]) with ((key_fields key ++ [I 4 off]) ++ [I 4 (zlen data)]) by (rewrite <- app_assoc; reflexivity).
      rewrite ser_app. change (ser [I 4 (zlen data)]) with (le_encode 4 (zlen data) ++ []). rewrite app_nil_r, <- app_assoc. reflexivity.
    - rewrite zlen_ser; [reflexivity|]. unfold fits in *. apply Forall_app in Hf as [A B]. apply Forall_app. split; [exact A|]. inversion B as [|? ? B1 B2]; subst. constructor; [exact B1|constructor].
    - cbn [sl s_len]. rewrite zlen_app. unfold zlen at 1. rewrite L. pose proof (zlen_nonneg data). change (itemSize) with 21. lia.
    - unfold is_u32. pose proof (zlen_nonneg data). lia. }
  rewrite HS. cbn [rbind]. pose proof (zlen_nonneg data) as Hn.
  assert (Eu : u32 (ItemLen + zlen data) = 25 + zlen data) by (unfold u32; change ItemLen with 25; apply Z.mod_small; lia).
  rewrite Eu. rewrite go_slice_ok; [|change ItemLen with 25; lia|unfold scap; cbn [sl s_arr]; rewrite zlen_app; unfold zlen at 2; rewrite L; lia].
  eexists. split; [reflexivity|]. unfold sbytes; cbn [s_arr s_len sl].
  change (Z.to_nat ItemLen) with 25%nat. rewrite skipn_app, L, Nat.sub_diag, skipn_O. rewrite skipn_all2 by lia. cbn [app].
  change ItemLen with 25. replace (25 + zlen data - 25) with (zlen data) by lia. unfold zlen. rewrite Nat2Z.id. apply firstn_all.
Qed.
(** inserting does not change what any other (owner, key) looks up, at any generation *)
Theorem C16_others_unchanged : forall b i gen o k, opened b -> wf_ins i -> wf_Key k -> is_u64 o -> is_u64 gen ->
  ~ (i_owner i = o /\ i_key i = k) ->
  ~ (o = 2^64 - 1 /\ KType k = 255 /\ 2^64 - 256 < ObjectID k) ->
  FindItem (put_ins b i) gen o k = FindItem b gen o k.
Proof.
  intros b i gen o k Op Hi Hk Ho Hgen Hne Hno.
  assert (HF : Forall wf_ins [i]) by (constructor; [exact Hi|constructor]).
  pose proof (puts_opened [i] b Op HF) as Op'. cbn [fold_left] in Op'.
  assert (Hs : forall g v, is_u64 g -> (stored (put_ins b i) o k g v <-> stored b o k g v)).
  { intros g v Hg. pose proof (stored_after [i] b o k g v (proj1 Op) HF ltac:(unfold wf_tuple; auto)) as H. cbn [fold_left] in H. rewrite H.
    split.
    - intros [(a & j & c & E & (A & B & _) & _)|[H1 _]]; [|exact H1].
      destruct a as [|a0 a]; [injection E as <- _|destruct a; discriminate]. exfalso. apply Hne. split; assumption.
    - intros H1. right. split; [exact H1|]. intros j [<-|[]] (A & B & _). apply Hne. split; assumption. }
  destruct (C17_selected_partial _ gen o k Op' Hk Ho Hgen Hno) as [(g1 & v1 & E1 & S1 & G1 & H1)|[E1 N1]];
  destruct (C17_selected_partial _ gen o k Op Hk Ho Hgen Hno) as [(g2 & v2 & E2 & S2 & G2 & H2)|[E2 N2]]; rewrite E1, E2.
  - assert (g1 = g2).
    { pose proof (proj2 (Hs g2 v2 G2) S2) as S2'. pose proof (proj1 (Hs g1 v1 G1) S1) as S1'.
      destruct H1 as [[A B]|[A B]], H2 as [[C D]|[C D]].
      - specialize (B g2 v2 G2 S2' C). specialize (D g1 v1 G1 S1' A). lia.
      - specialize (D g1 v1 G1 S1'). lia.
      - specialize (B g2 v2 G2 S2'). lia.
      - specialize (B g2 v2 G2 S2'). specialize (D g1 v1 G1 S1'). lia. }
    subst g2. apply Hs in S1; [|exact G1]. rewrite (key_unique _ _ _ _ (proj1 Op) S1 S2). reflexivity.
  - exfalso. apply N2. split; [exact Hk|]. exists g1, v1. split; [exact G1|apply Hs; assumption].
  - exfalso. apply N1. split; [exact Hk|]. exists g2, v2. split; [exact G2|apply Hs; assumption].
  - reflexivity.
Qed.
(** one key is special: an item carrying the sentinel's key overwrites the
    metadata record *)
Theorem C16_metadata_overwritten_refuted : exists b i, opened b /\ wf_tuple (i_owner i) (i_key i) (i_gen i) /\
  get b metadataKey = Some (newIndexMetadata (mkOptions false 16384 (repeat x07 16) 0 false)) /\
  get (put_ins b i) metadataKey = Some (i_item i ++ i_data i).
Proof.
  exists (mkb []), (mkIns KL0 max64 max64 (repeat x00 25) []). split; [apply opened_ok; vm_compute; reflexivity|].
  split; [split; [exact max64_u64|split; [exact wf_KL0|exact max64_u64]]|]. split; vm_compute; reflexivity.
Qed.
Example C16_ex : let i := mkIns (mkKey 256 1 0) 5 7 (repeat x00 25) [x01] in wf_ins i /\ opened (mkb []) /\
  Forall wf_ins [i; i; mkIns (mkKey 256 1 0) 5 9 (repeat x00 25) [x02]].
Proof.
  assert (H : forall g d, is_u64 g -> wf_ins (mkIns (mkKey 256 1 0) 5 g (repeat x00 25) d)).
  { intros g d Hg. split; [split; [unfold is_u64; cbn; lia|split; [unfold wf_Key, is_u64, is_u8; cbn; lia|exact Hg]]|].
    intros E. apply newIndexKey_inj in E as (A & _); [discriminate| |split; [exact max64_u64|split; [exact wf_KL0|exact max64_u64]]].
    split; [unfold is_u64; cbn; lia|split; [unfold wf_Key, is_u64, is_u8; cbn; lia|exact Hg]]. }
  cbv zeta. split; [apply H; unfold is_u64; lia|]. split; [apply opened_ok; vm_compute; reflexivity|].
  repeat constructor; apply H; unfold is_u64; lia.
Qed.
Print Assumptions C16_last_insert. Print Assumptions C16_header_and_data. Print Assumptions C16_others_unchanged. Print Assumptions C16_metadata_overwritten_refuted.

(** ** C25 *)
Definition md_record (ver bs : Z) (fsid : list byte) (gen : Z) : list byte := le_encode 8 ver ++ le_encode 4 bs ++ fsid ++ le_encode 8 gen.
Lemma md_record_fields ver bs fsid gen : is_u64 ver -> is_u32 bs -> length fsid = 16%nat ->
  md_Version (md_record ver bs fsid gen) = Ok ver /\ md_BlockSize (md_record ver bs fsid gen) = Ok bs /\ md_FSID (md_record ver bs fsid gen) = Ok fsid.
Proof.
  intros Hv Hb Hf.
  assert (W : slice_wf (sl (md_record ver bs fsid gen))) by apply sl_wf.
  assert (L : s_len (sl (md_record ver bs fsid gen)) = 36).
  { cbn [sl s_len]. unfold md_record. rewrite !zlen_app, !zlen_le_encode. unfold zlen. rewrite Hf. reflexivity. }
  assert (A : s_arr (sl (md_record ver bs fsid gen)) = le_encode 8 ver ++ le_encode 4 bs ++ fsid ++ le_encode 8 gen) by reflexivity.
  repeat split.
  - apply (at64_val _ [] ver _ 0 W A eq_refl); [rewrite L; lia|exact Hv].
  - apply (at32_val _ (le_encode 8 ver) bs _ 8 W A eq_refl); [rewrite L; lia|exact Hb].
  - apply (atUUID_val _ (le_encode 8 ver ++ le_encode 4 bs) fsid (le_encode 8 gen) 12 W);
      [rewrite A, <- !app_assoc; reflexivity|reflexivity|rewrite L; lia|exact Hf].
Qed.
(** opening an existing index: succeeds exactly when compatible, and the file is
    unchanged either way *)
Definition compatible (o : Options) (ver bs : Z) (fsid : list byte) : Prop :=
  ver <= 20190809 /\ (o_AllowOldVersion o = true \/ ver = 20190809) /\
  (o_ReadOnly o = true \/ o_AllowOldVersion o = true \/ (bs = o_BlockSize o mod 2^32 /\ fsid = o_FSID o)).
Theorem C25_open_existing : forall o b ver bs fsid gen,
  wf_bucket b -> get b metadataKey = Some (md_record ver bs fsid gen) -> is_u64 ver -> is_u32 bs -> length fsid = 16%nat ->
  (compatible o ver bs fsid /\ exists ix, openIndex true o (Some b) = Ok (Some b, Some ix) /\
      ix_disk ix = Some b /\ ix_readonly ix = o_ReadOnly o /\ ix_Generation ix = o_Generation o /\
      ix_tx ix = Some (mkTx (negb (o_ReadOnly o)) b) /\ ix_bucket ix = true) \/
  (~ compatible o ver bs fsid /\ openIndex true o (Some b) = Ok (Some b, None)).
Proof.
  intros o b ver bs fsid gen W G Hv Hb Hf. destruct (md_record_fields ver bs fsid gen Hv Hb Hf) as (E1 & E2 & E3).
  unfold openIndex, checkUpdateMetadata. rewrite G. unfold check_metadata. rewrite E1, E2, E3. cbn [rbind].
  unfold compatible. change MetadataVersion with 20190809.
  destruct (o_AllowOldVersion o) eqn:EA; cbn [negb andb orb].
  - destruct (20190809 <? ver) eqn:V; cbn [rbind].
    + right. split; [lia|reflexivity].
    + left. split; [repeat split; try lia; auto|]. destruct (o_ReadOnly o) eqn:ER; (eexists; split; [reflexivity|]; auto).
  - destruct (ver <? 20190809) eqn:V1; cbn [rbind].
    { right. split; [|reflexivity]. intros (_ & [H|H] & _); [discriminate|lia]. }
    destruct (20190809 <? ver) eqn:V2; cbn [rbind].
    { right. split; [lia|reflexivity]. }
    assert (ver = 20190809) by lia.
    destruct (o_ReadOnly o) eqn:ER; cbn [rbind orb].
    { left. split; [split; [lia|auto]|]. eexists. split; [reflexivity|]. auto. }
    change (u32 (o_BlockSize o)) with (o_BlockSize o mod 2^32). destruct (bs =? o_BlockSize o mod 2 ^ 32) eqn:EB; cbn [negb rbind].
    + destruct (bytes_eqb fsid (o_FSID o)) eqn:EF; cbn [negb rbind].
      * left. apply bytes_eqb_eq in EF. split; [repeat split; auto; try lia; right; right; split; [lia|exact EF]|]. eexists. split; [reflexivity|]. auto.
      * right. apply bytes_eqb_neq in EF. split; [|reflexivity]. intros (_ & _ & [H1|[H1|[_ H1]]]); [discriminate|discriminate|contradiction].
    + right. split; [|reflexivity]. intros (_ & _ & [H1|[H1|[H1 _]]]); [discriminate|discriminate|lia].
Qed.
(** opening a file without an index: read-only fails, read-write creates exactly
    the metadata record, which a later open with the same options accepts *)
Theorem C25_open_new : forall o, length (o_FSID o) = 16%nat -> is_u64 (o_Generation o) ->
  if o_ReadOnly o then openIndex true o None = Ok (None, None)
  else exists b ix, openIndex true o None = Ok (Some b, Some ix) /\ b = [(metadataKey, newIndexMetadata o)] /\ opened b /\
    ix_disk ix = Some b /\ (exists ix', openIndex true o (Some b) = Ok (Some b, Some ix')).
Proof.
  intros o Hf Hg. destruct (o_ReadOnly o) eqn:ER.
  - unfold openIndex, checkUpdateMetadata. rewrite ER. reflexivity.
  - exists [(metadataKey, newIndexMetadata o)].
    exists (mkIndex (Some [(metadataKey, newIndexMetadata o)]) false (Some (mkTx true [(metadataKey, newIndexMetadata o)])) true 0 (o_Generation o)).
    assert (W : wf_bucket [(metadataKey, newIndexMetadata o)]) by (split; [cbn; auto|repeat constructor]).
    split; [unfold openIndex, checkUpdateMetadata; rewrite !ER; reflexivity|].
    split; [reflexivity|]. split; [split; [exact W|eexists; left; reflexivity]|]. split; [reflexivity|].
    assert (G : get [(metadataKey, newIndexMetadata o)] metadataKey = Some (md_record 20190809 (u32 (o_BlockSize o)) (o_FSID o) (o_Generation o))).
    { apply get_In; [exact W|]. left. reflexivity. }
    destruct (C25_open_existing o _ _ _ _ _ W G) as [[_ (ix & H & _)]|[H _]]; [unfold is_u64; lia|apply u32_range|exact Hf|eauto|].
    exfalso. apply H. unfold compatible. split; [lia|]. split; [auto|]. right. right. auto.
Qed.
(** a metadata record of less than 8 bytes (damaged file) aborts *)
Theorem C25_damaged_refuted : forall o b m, get b metadataKey = Some m -> zlen m < 8 -> openIndex true o (Some b) = Panic.
Proof.
  intros o b m G Hm. unfold openIndex, checkUpdateMetadata. rewrite G. unfold check_metadata.
  assert (E : md_Version m = Panic).
  { unfold md_Version, at64, indexMetadataVersion. unfold go_from, SliceUint64LE. cbn [sl s_len].
    pose proof (zlen_nonneg m). rewrite go_slice_ok by (unfold scap; cbn [sl s_arr]; lia). cbn [rbind sl s_arr]. cbn [Z.to_nat skipn].
    unfold go_to. rewrite go_slice_panic; [reflexivity|]. unfold scap; cbn [s_arr]. lia. }
  rewrite E. reflexivity.
Qed.
Example C25_ex : compatible (mkOptions false 16384 (repeat x07 16) 0 false) 20190809 16384 (repeat x07 16) /\
  ~ compatible (mkOptions false 16384 (repeat x07 16) 0 false) 20190809 4096 (repeat x07 16).
Proof. unfold compatible; cbn. split; [repeat split; try lia; auto|]. intros (_ & _ & [H|[H|[H _]]]); discriminate. Qed.
Print Assumptions C25_open_existing. Print Assumptions C25_open_new. Print Assumptions C25_damaged_refuted.

(** ** C26 *)
(** whatever is called on an index opened read-only, with whatever outcome, the
    file keeps its content *)
Lemma ro_step o ix ix' e : ix_readonly ix = true -> (forall t, ix_tx ix = Some t -> tx_writable t = false) -> step o ix = Ok (ix', e) ->
  ix_disk ix' = ix_disk ix /\ ix_readonly ix' = true /\ (forall t, ix_tx ix' = Some t -> tx_writable t = false).
Proof.
  intros Hro Htx H.
  assert (HE : forall ok ix1 e1, ensureTx ok true ix = (ix1, e1) -> e1 = EErr /\ ix_disk ix1 = ix_disk ix /\ ix_readonly ix1 = true /\ ix_tx ix1 = None).
  { intros ok ix1 e1. unfold ensureTx, Commit, begin_tx. destruct (ix_tx ix) as [t|] eqn:ET.
    - rewrite (Htx t eq_refl). cbn [Bool.eqb andb]. intros [= <- <-]. auto.
    - rewrite Hro. cbn [andb]. intros [= <- <-]. auto. }
  destruct o as [[i| |ow k|fn] ok]; unfold step in H; cbn [fst snd] in H.
  - unfold InsertItem in H. destruct (ensureTx ok true ix) as [ix1 e1] eqn:E. destruct (HE _ _ _ E) as (-> & A & B & C).
    injection H as <- <-. rewrite C. repeat split; try assumption. intros t Ht; discriminate.
  - unfold Commit in H. destruct (ix_tx ix) as [t|] eqn:ET.
    + rewrite (Htx t eq_refl) in H. cbn [andb] in H. injection H as <- <-. cbn. repeat split; try assumption. intros t' Ht; discriminate.
    + injection H as <- <-. rewrite ET. repeat split; try assumption; intros t' Ht; discriminate.
  - destruct (ix_FindItem ix ow k) as [r| |]; cbn [rbind] in H; try discriminate. injection H as <- <-. auto.
  - unfold RawTx in H. destruct (ensureTx ok true ix) as [ix1 e1] eqn:E. destruct (HE _ _ _ E) as (-> & A & B & C).
    injection H as <- <-. rewrite C. repeat split; try assumption. intros t Ht; discriminate.
Qed.
Lemma ro_run ops : forall ix ix', ix_readonly ix = true -> (forall t, ix_tx ix = Some t -> tx_writable t = false) -> run ops ix = Ok ix' ->
  ix_disk ix' = ix_disk ix /\ ix_readonly ix' = true.
Proof.
  induction ops as [|o ops IH]; intros ix ix' Hro Htx H; cbn [run] in H.
  - injection H as <-. auto.
  - destruct (step o ix) as [[ix1 e]| |] eqn:E; cbn [rbind] in H; try discriminate.
    destruct (ro_step o ix ix1 e Hro Htx E) as (A & B & C). destruct (IH ix1 ix' B C H) as [D F]. rewrite D. auto.
Qed.
Theorem C26_readonly : forall d d' ix ops ix' ok,
  OpenReadOnly d = Ok (d', Some ix) -> run ops ix = Ok ix' ->
  d' = d /\ ix_disk ix' = d /\ (forall d'', Close ok ix' = Ok d'' -> d'' = d).
Proof.
  intros d d' ix ops ix' ok HO HR. unfold OpenReadOnly, openIndex in HO.
  destruct (checkUpdateMetadata true ro_options d) as [[d1 e]| |] eqn:EC; cbn [rbind] in HO; try discriminate.
  assert (d1 = d).
  { unfold checkUpdateMetadata in EC. cbn [o_ReadOnly ro_options] in EC. destruct d as [b|].
    - destruct (get b metadataKey) as [m|]; [|injection EC as <- _; reflexivity].
      destruct (check_metadata ro_options m) as [e'| |]; cbn [rbind orb] in EC; try discriminate. destruct e'; injection EC as <- _; reflexivity.
    - injection EC as <- _. reflexivity. }
  subst d1. destruct e; [|discriminate]. cbn [o_ReadOnly ro_options negb ensureTx ix_tx begin_tx andb ix_disk ix_readonly] in HO.
  assert (HI : d' = d /\ ix_readonly ix = true /\ ix_disk ix = d /\ forall t, ix_tx ix = Some t -> tx_writable t = false).
  { unfold ensureTx, begin_tx in HO. cbn [ix_tx ix_readonly ix_disk andb] in HO. destruct d as [b|]; injection HO as <- <-; cbn; repeat split; intros t [= <-]; reflexivity. }
  destruct HI as (-> & H1 & H2 & H3). destruct (ro_run ops ix ix' H1 H3 HR) as [H4 H5].
  split; [reflexivity|]. split; [congruence|]. intros d'' HC. unfold Close in HC. rewrite H5 in HC. destruct (ix_tx ix'); [|discriminate].
  injection HC as <-. congruence.
Qed.
(** an insert attempted on a read-only index makes the following Close abort *)
Theorem C26_insert_then_close : forall b m i, get b metadataKey = Some m -> check_metadata ro_options m = Ok ENone ->
  exists ix ix', OpenReadOnly (Some b) = Ok (Some b, Some ix) /\ InsertItem true i ix = Ok (ix', EErr) /\ Close true ix' = Panic.
Proof.
  intros b m i G HC. unfold OpenReadOnly, openIndex, checkUpdateMetadata. rewrite G, HC. cbn [rbind].
  eexists _, _. split; [reflexivity|]. split; reflexivity.
Qed.
Example C26_ex : exists ix ix', OpenReadOnly (Some b17) = Ok (Some b17, Some ix) /\
  run [(OFind 5 (mkKey 256 1 0), true); (OInsert (mkIns (mkKey 1 1 1) 5 1 [] []), true); (OCommit, true)] ix = Ok ix'.
Proof. eexists _, _. split; [vm_compute; reflexivity|]. vm_compute. reflexivity. Qed.
Print Assumptions C26_readonly. Print Assumptions C26_insert_then_close.

(** ** C24 *)
(** reachable states of inserting: [n] inserts accepted since the index was
    opened read-write on a file holding [b] *)
Fixpoint inserts (is : list insertion) (ix : index) : Res index :=
  match is with
  | [] => Ok ix
  | i :: r => ' (ix', e) <- InsertItem true i ix ;; match e with ENone => inserts r ix' | EErr => Panic end
  end.
Definition rw_open (b : bucket) (gen : Z) : index := mkIndex (Some b) false (Some (mkTx true b)) true 0 gen.
Definition durable (b : bucket) (is : list insertion) (gen : Z) (ix : index) : Prop :=
  ix_readonly ix = false /\ ix_Generation ix = gen /\
  exists a c, is = a ++ c /\ ix_disk ix = Some (fold_left put_ins a b) /\ zlen c = ix_txNum ix /\ zlen c <= 10000 /\
  ((ix_tx ix = Some (mkTx true (fold_left put_ins is b)) /\ ix_bucket ix = true) \/ (ix_tx ix = None /\ ix_bucket ix = false /\ c = [])).
Lemma insert_durable b is i gen ix : durable b is gen ix ->
  exists ix', InsertItem true i ix = Ok (ix', ENone) /\ durable b (is ++ [i]) gen ix'.
Proof.
  intros (Hro & Hgen & a & c & Hac & Hd & Hn & Hle & Htx).
  assert (HE : exists ix1, ensureTx true true ix = (ix1, ENone) /\ ix_readonly ix1 = false /\ ix_Generation ix1 = gen /\ ix_disk ix1 = ix_disk ix /\
     ix_txNum ix1 = ix_txNum ix /\ ix_tx ix1 = Some (mkTx true (fold_left put_ins is b)) /\ ix_bucket ix1 = true).
  { destruct Htx as [[Ht Hb]|(Ht & Hb & Hc)].
    - exists ix. unfold ensureTx. rewrite Ht. cbn. auto 10.
    - unfold ensureTx, begin_tx. rewrite Ht, Hro, Hd. cbn [andb]. eexists. split; [reflexivity|]. cbn. subst c. rewrite app_nil_r in Hac. subst a. auto 10. }
  destruct HE as (ix1 & HE & R1 & G1 & D1 & N1 & T1 & B1).
  unfold InsertItem. rewrite HE, T1, B1. cbn [tx_writable tx_bucket ix_txNum].
  assert (HF : put_ins (fold_left put_ins is b) i = fold_left put_ins (is ++ [i]) b) by (rewrite fold_left_app; reflexivity).
  destruct (10000 <? ix_txNum ix1 + 1) eqn:E.
  - eexists. split; [reflexivity|]. cbn [Commit fst ix_tx tx_writable andb]. split; [exact R1|]. split; [exact G1|].
    exists (is ++ [i]), []. rewrite app_nil_r. cbn. rewrite HF. repeat split; auto; try lia. 
  - eexists. split; [reflexivity|]. split; [exact R1|]. split; [exact G1|]. exists a, (c ++ [i]). cbn [ix_disk ix_txNum ix_tx ix_bucket].
    rewrite HF, D1. split; [rewrite Hac, app_assoc; reflexivity|]. split; [exact Hd|]. rewrite zlen_app. change (zlen [i]) with 1.
    split; [lia|]. split; [lia|]. left. auto.
Qed.
Lemma inserts_durable b gen : forall is0 is ix, durable b is0 gen ix -> exists ix', inserts is ix = Ok ix' /\ durable b (is0 ++ is) gen ix'.
Proof.
  intros is0 is; revert is0. induction is as [|i is IH]; intros is0 ix H; cbn [inserts].
  - exists ix. rewrite app_nil_r. auto.
  - destruct (insert_durable b is0 i gen ix H) as (ix1 & -> & H1). cbn [rbind].
    destruct (IH (is0 ++ [i]) ix1 H1) as (ix' & A & B). exists ix'. rewrite <- app_assoc in B. auto.
Qed.
(** after n accepted inserts, a crash leaves the file with exactly the first m
    of them for some m >= n - 10000 *)
Theorem C24_crash : forall b gen is, exists ix,
  inserts is (rw_open b gen) = Ok ix /\
  exists a c, is = a ++ c /\ zlen c <= 10000 /\ ix_disk ix = Some (fold_left put_ins a b) /\
  (** Commit and Close lose nothing *)
  ix_disk (fst (Commit true ix)) = Some (fold_left put_ins is b) /\
  Close true ix = Ok (Some (fold_left put_ins is b)).
Proof.
  intros b gen is.
  assert (H0 : durable b [] gen (rw_open b gen)).
  { split; [reflexivity|]. split; [reflexivity|]. exists [], []. cbn. repeat split; auto; lia. }
  destruct (inserts_durable b gen [] is _ H0) as (ix & HI & Hro & Hgen & a & c & Hac & Hd & Hn & Hle & Htx). cbn [app] in *.
  exists ix. split; [exact HI|]. exists a, c. split; [exact Hac|]. split; [exact Hle|]. split; [exact Hd|].
  assert (HC : ix_disk (fst (Commit true ix)) = Some (fold_left put_ins is b)).
  { unfold Commit. destruct Htx as [[-> _]|(-> & _ & ->)]; cbn; [reflexivity|]. rewrite app_nil_r in Hac. subst a. exact Hd. }
  split; [exact HC|]. unfold Close. rewrite Hro, HC. reflexivity.
Qed.
(** the same for inserts and explicit commits in any order, each of which may
    fail (disk full, I/O error); the caller stops at the first error, as recon
    does.  [acked]: the inserts that reported success. *)
Definition call : Type := (option insertion * bool)%type.
Fixpoint until_error (cs : list call) (ix : index) (acked : list insertion) : Res (index * list insertion * bool) :=
  match cs with
  | [] => Ok (ix, acked, true)
  | (Some i, ok) :: r =>
      ' (ix', e) <- InsertItem ok i ix ;;
      match e with ENone => until_error r ix' (acked ++ [i]) | EErr => Ok (ix', acked, false) end
  | (None, ok) :: r =>
      let '(ix', e) := Commit ok ix in
      match e with ENone => until_error r ix' acked | EErr => Ok (ix', acked, false) end
  end.
Definition lossy (b : bucket) (acked : list insertion) (ix : index) : Prop :=
  exists a c, acked = a ++ c /\ zlen c <= 10000 /\ ix_disk ix = Some (fold_left put_ins a b).
Lemma durable_lossy b is gen ix : durable b is gen ix -> lossy b is ix.
Proof. intros (_ & _ & a & c & H1 & H2 & H3 & H4 & _). exists a, c. auto. Qed.
Lemma insert_fail b is i gen ix : durable b is gen ix ->
  exists ix' e, InsertItem false i ix = Ok (ix', e) /\
    match e with ENone => durable b (is ++ [i]) gen ix' | EErr => lossy b is ix' end.
Proof.
  intros (Hro & Hgen & a & c & Hac & Hd & Hn & Hle & Htx).
  assert (HE : exists ix1, ensureTx false true ix = (ix1, ENone) /\ ix_readonly ix1 = false /\ ix_Generation ix1 = gen /\ ix_disk ix1 = ix_disk ix /\
     ix_txNum ix1 = ix_txNum ix /\ ix_tx ix1 = Some (mkTx true (fold_left put_ins is b)) /\ ix_bucket ix1 = true).
  { destruct Htx as [[Ht Hb]|(Ht & Hb & Hc)].
    - exists ix. unfold ensureTx. rewrite Ht. cbn. auto 10.
    - unfold ensureTx, begin_tx. rewrite Ht, Hro, Hd. cbn [andb]. eexists. split; [reflexivity|]. cbn. subst c. rewrite app_nil_r in Hac. subst a. auto 10. }
  destruct HE as (ix1 & HE & R1 & G1 & D1 & N1 & T1 & B1).
  unfold InsertItem. rewrite HE, T1, B1. cbn [tx_writable tx_bucket ix_txNum].
  assert (HF : put_ins (fold_left put_ins is b) i = fold_left put_ins (is ++ [i]) b) by (rewrite fold_left_app; reflexivity).
  destruct (10000 <? ix_txNum ix1 + 1) eqn:E.
  - eexists _, EErr. split; [reflexivity|]. exists a, c. cbn. rewrite D1. auto.
  - eexists _, ENone. split; [reflexivity|]. split; [exact R1|]. split; [exact G1|]. exists a, (c ++ [i]). cbn [ix_disk ix_txNum ix_tx ix_bucket].
    rewrite HF, D1. split; [rewrite Hac, app_assoc; reflexivity|]. split; [exact Hd|]. rewrite zlen_app. change (zlen [i]) with 1.
    split; [lia|]. split; [lia|]. left. auto.
Qed.
Lemma commit_durable b is gen ix ok ix' e : durable b is gen ix -> Commit ok ix = (ix', e) ->
  match e with ENone => durable b is gen ix' /\ ix_disk ix' = Some (fold_left put_ins is b) | EErr => lossy b is ix' end.
Proof.
  intros D HC. pose proof D as (Hro & Hgen & a & c & Hac & Hd & Hn & Hle & Htx). unfold Commit in HC.
  destruct Htx as [[Ht Hb]|(Ht & Hb & Hc)]; rewrite Ht in HC.
  - cbn [tx_writable andb tx_bucket] in HC. destruct ok; injection HC as <- <-.
    + split; [|reflexivity]. split; [exact Hro|]. split; [exact Hgen|]. exists is, []. rewrite app_nil_r. cbn. repeat split; auto; lia.
    + exists a, c. cbn. auto.
  - injection HC as <- <-. split; [exact D|]. subst c. rewrite app_nil_r in Hac. subst a. exact Hd.
Qed.
Lemma until_error_lossy b gen cs : forall acked ix, durable b acked gen ix -> exists ix' acked' good,
  until_error cs ix acked = Ok (ix', acked', good) /\ lossy b acked' ix' /\ (good = true -> durable b acked' gen ix').
Proof.
  induction cs as [|[[i|] ok] cs IH]; intros acked ix D; cbn [until_error].
  - exists ix, acked, true. split; [reflexivity|]. split; [exact (durable_lossy _ _ _ _ D)|auto].
  - destruct ok.
    + destruct (insert_durable b acked i gen ix D) as (ix1 & -> & D1). cbn [rbind]. apply IH. exact D1.
    + destruct (insert_fail b acked i gen ix D) as (ix1 & e & -> & D1). cbn [rbind]. destruct e.
      * apply IH. exact D1.
      * exists ix1, acked, false. split; [reflexivity|]. split; [exact D1|discriminate].
  - destruct (Commit ok ix) as [ix1 e] eqn:EC. pose proof (commit_durable b acked gen ix ok ix1 e D EC) as D1. destruct e.
    + apply IH. apply D1.
    + exists ix1, acked, false. split; [reflexivity|]. split; [exact D1|discriminate].
Qed.
Theorem C24_crash_with_errors : forall b gen cs, exists ix acked good,
  until_error cs (rw_open b gen) [] = Ok (ix, acked, good) /\
  (** if the process dies now, the file holds the first inserts, all but 10000 at most *)
  (exists a c, acked = a ++ c /\ zlen c <= 10000 /\ ix_disk ix = Some (fold_left put_ins a b)) /\
  (** if no call failed and Commit now succeeds, the file holds all of them *)
  (good = true -> forall ix', Commit true ix = (ix', ENone) -> ix_disk ix' = Some (fold_left put_ins acked b)).
Proof.
  intros b gen cs.
  assert (H0 : durable b [] gen (rw_open b gen)).
  { split; [reflexivity|]. split; [reflexivity|]. exists [], []. cbn. repeat split; auto; lia. }
  destruct (until_error_lossy b gen cs [] _ H0) as (ix & acked & good & E & L & D).
  exists ix, acked, good. split; [exact E|]. split; [exact L|]. intros Hg ix' HC. exact (proj2 (commit_durable _ _ _ _ _ _ _ (D Hg) HC)).
Qed.
(** the bound is reached: with exactly 10000 inserts pending, all are lost *)
Theorem C24_bound_tight : forall b gen is, zlen is = 10000 -> exists ix, inserts is (rw_open b gen) = Ok ix /\ ix_disk ix = Some b.
Proof.
  intros b gen is Hlen.
  assert (H : forall is s n, zlen is + n <= 10000 -> 0 <= n -> exists ix, inserts is (mkIndex (Some b) false (Some (mkTx true s)) true n gen) = Ok ix /\ ix_disk ix = Some b).
  { induction is0 as [|i is0 IH]; intros s n Hz Hn; cbn [inserts]; [eexists; split; [reflexivity|reflexivity]|].
    rewrite zlen_cons in Hz. pose proof (zlen_nonneg is0). unfold InsertItem, ensureTx. cbn [ix_tx tx_writable Bool.eqb ix_bucket ix_txNum tx_bucket].
    replace (10000 <? n + 1) with false by lia. cbn [rbind]. apply IH; lia. }
  apply (H is b 0); lia.
Qed.
Example C24_ex2 : exists ix, until_error [(Some (mkIns (mkKey 1 1 1) 5 1 [] []), true); (None, true); (Some (mkIns (mkKey 2 1 1) 5 1 [] []), true); (None, false)]
  (rw_open (mkb []) 0) [] = Ok (ix, [mkIns (mkKey 1 1 1) 5 1 [] []; mkIns (mkKey 2 1 1) 5 1 [] []], false). Proof. eexists. vm_compute. reflexivity. Qed.
Example C24_ex : exists is : list insertion, zlen is = 10000. Proof. exists (repeat (mkIns (mkKey 0 0 0) 5 0 [] []) (Z.to_nat 10000)). unfold zlen. rewrite repeat_length. lia. Qed.
Print Assumptions C24_crash. Print Assumptions C24_crash_with_errors. Print Assumptions C24_bound_tight.

(** ** C27 *)
(** as long as nothing was committed (at most 10000 inserts since open), queries
    run on the bucket with all inserts applied *)
Theorem C27_queries_partial : forall b gen is, zlen is <= 10000 -> exists ix,
  inserts is (rw_open b gen) = Ok ix /\
  forall (A : Type) (q : bucket -> Res A), with_bucket ix q = q (fold_left put_ins is b).
Proof.
  intros b gen is Hlen.
  assert (H : forall is s n, zlen is + n <= 10000 -> 0 <= n -> exists ix, inserts is (mkIndex (Some b) false (Some (mkTx true s)) true n gen) = Ok ix /\
     ix_tx ix = Some (mkTx true (fold_left put_ins is s)) /\ ix_bucket ix = true).
  { induction is0 as [|i is0 IH]; intros s n Hz Hn; cbn [inserts]; [eexists; split; [reflexivity|split; reflexivity]|].
    rewrite zlen_cons in Hz. pose proof (zlen_nonneg is0). unfold InsertItem, ensureTx. cbn [ix_tx tx_writable Bool.eqb ix_bucket ix_txNum tx_bucket].
    replace (10000 <? n + 1) with false by lia. cbn [rbind]. destruct (IH (put_ins s i) (n + 1)) as (ix & A & B); [lia|lia|]. exists ix. auto. }
  destruct (H is b 0) as (ix & A & B & C); [lia|lia|]. exists ix. split; [exact A|]. intros T q. unfold with_bucket. rewrite B, C. reflexivity.
Qed.
(** after the 10001st insert since the last commit, and after every successful
    Commit, every query aborts *)
Theorem C27_refuted : forall b gen is i, zlen is = 10000 -> exists ix ix',
  inserts is (rw_open b gen) = Ok ix /\ InsertItem true i ix = Ok (ix', ENone) /\
  (forall owner k, ix_FindItem ix' owner k = Panic) /\ ix_Metadata ix' = Panic.
Proof.
  intros b gen is i Hlen.
  assert (H : forall is s n, zlen is + n = 10000 -> 0 <= n -> exists ix, inserts is (mkIndex (Some b) false (Some (mkTx true s)) true n gen) = Ok ix /\
     ix_tx ix = Some (mkTx true (fold_left put_ins is s)) /\ ix_bucket ix = true /\ ix_txNum ix = 10000).
  { induction is0 as [|j is0 IH]; intros s n Hz Hn; cbn [inserts]; [eexists; split; [reflexivity|repeat split]; cbn in *; lia|].
    rewrite zlen_cons in Hz. pose proof (zlen_nonneg is0). unfold InsertItem, ensureTx. cbn [ix_tx tx_writable Bool.eqb ix_bucket ix_txNum tx_bucket].
    replace (10000 <? n + 1) with false by lia. cbn [rbind]. destruct (IH (put_ins s j) (n + 1)) as (ix & A & B); [lia|lia|]. exists ix. auto. }
  destruct (H is b 0) as (ix & A & B & C & D); [lia|lia|]. exists ix. unfold InsertItem, ensureTx. rewrite B. cbn [tx_writable Bool.eqb]. rewrite B, C, D.
  cbn [ix_txNum]. change (10000 <? 10000 + 1) with true. cbn. eexists. split; [exact A|]. split; [reflexivity|]. split; reflexivity.
Qed.
Theorem C27_commit_refuted : forall b gen, exists ix, Commit true (rw_open b gen) = (ix, ENone) /\ forall owner k, ix_FindItem ix owner k = Panic.
Proof. intros b gen. eexists. split; reflexivity. Qed.
(** the next insert makes the index usable again, with everything visible *)
Theorem C27_revived_partial : forall b gen is i, exists ix ix' ix'', inserts is (rw_open b gen) = Ok ix /\
  Commit true ix = (ix', ENone) /\ InsertItem true i ix' = Ok (ix'', ENone) /\
  forall (A : Type) (q : bucket -> Res A), with_bucket ix'' q = q (fold_left put_ins (is ++ [i]) b).
Proof.
  intros b gen is i. destruct (C24_crash b gen is) as (ix & HI & a & c & Hac & Hle & Hd & HC & _).
  assert (H0 : durable b [] gen (rw_open b gen)).
  { split; [reflexivity|]. split; [reflexivity|]. exists [], []. cbn. repeat split; auto; lia. }
  destruct (inserts_durable b gen [] is _ H0) as (ix0 & HI0 & Hro & _ & a0 & c0 & Hac0 & Hd0 & Hn0 & _ & Htx). rewrite HI in HI0. injection HI0 as <-.
  exists ix. assert (HR : exists ix', Commit true ix = (ix', ENone) /\ ix_tx ix' = None /\ ix_readonly ix' = false /\ ix_disk ix' = Some (fold_left put_ins is b) /\ ix_txNum ix' = 0).
  { unfold Commit in *. destruct Htx as [[Ht _]|(Ht & _ & Hc)]; rewrite Ht in *; cbn in *.
    - eexists. split; [reflexivity|]. cbn. auto.
    - exists ix. subst c0. repeat split; auto. }
  destruct HR as (ix' & E1 & E2 & E3 & E4 & E5). exists ix'. unfold InsertItem, ensureTx, begin_tx. rewrite E2, E3, E4, E5. cbn [andb ix_tx ix_bucket ix_txNum tx_bucket].
  change (10000 <? 0 + 1) with false. cbn. eexists. split; [exact HI|]. split; [exact E1|]. split; [reflexivity|].
  intros A q. unfold with_bucket; cbn. rewrite fold_left_app. reflexivity.
Qed.
Print Assumptions C27_queries_partial. Print Assumptions C27_refuted. Print Assumptions C27_commit_refuted. Print Assumptions C27_revived_partial.

(** C88: recon into a metadata file that exists already, with and without --append. *)
From Verif Require Import Go GoProofs Layout LayoutProofs SpecLayout LeafProofs StructProofs PropsLayout KeyFmt KeyProofs Bolt Store StoreProofs SpecStore RangeProofs PropsStore Session PropsSession IoUtil Recon ReconCmd PropsRecon PropsReconAny PropsReconEx PropsReconFault PropsRestart.
From Coq Require Import ZifyBool ZifyNat ZifyN.
Ltac Zify.zify_post_hook ::= Z.div_mod_to_equations.

(** ** specification *)
(** a block that a read of the device delivered, and an item in it *)
Definition device_item (dev : device) (bs : Z) (id : list byte) (i : insertion) : Prop :=
  exists off bl j, dev_read dev bs off = (bl, None) /\ ~ foreign id bl /\ 0 <= j < num 96 4 bl /\ item_readable bl j /\ i = raw_item bl j.
(** reads without error deliver what was asked for *)
Definition whole_reads (dev : device) (bs : Z) : Prop := forall off bl, dev_read dev bs off = (bl, None) -> zlen bl = bs.

(** ** proofs *)
Lemma blocks_exist r bs fin : (forall off bl, r bs off = (bl, None) -> zlen bl = bs) -> 0 < bs -> forall n off, fin - off <= bs * Z.of_nat n -> exists bls ok, device_blocks r bs fin off bls ok.
Proof.
  intros HW Hb. induction n as [|n IH]; intros off Hn; [exists [], true; apply db_end; lia|].
  destruct (Z_lt_le_dec off fin) as [Hl|Hl]; [|exists [], true; apply db_end; exact Hl].
  destruct (r bs off) as [bl [[|]|]] eqn:E; [exists [], true; exact (db_eof _ _ _ _ _ Hl E)|exists [], false; exact (db_err _ _ _ _ _ Hl E)|].
  destruct (IH (off + bs) ltac:(nia)) as (bls & ok & H). exists (bl :: bls), ok. apply db_block; [exact Hl|exact E|exact (HW _ _ E)|exact H].
Qed.
Lemma blocks_from r bs fin : forall off bls ok, device_blocks r bs fin off bls ok -> forall bl, In bl bls -> exists o, r bs o = (bl, None).
Proof. intros off bls ok H. induction H as [| | |off bl bls ok H1 H2 H3 H4 IH]; intros b Hb; try destruct Hb as [<-|Hb]; try contradiction; [exists off; exact H2|exact (IH b Hb)]. Qed.
Lemma items_from id : forall bls is c, blocks_items id bls is c -> forall i, In i is -> exists bl j, In bl bls /\ ~ foreign id bl /\ 0 <= j < num 96 4 bl /\ item_readable bl j /\ i = raw_item bl j.
Proof.
  intros bls is c H. induction H as [|bl bls is c HF HS IH|bl bls is c HF HR HS IH|bl bls m HF Hm HU HR]; intros i Hi.
  - contradiction.
  - destruct (IH i Hi) as (b & j & H1 & H2). exists b, j. split; [right; exact H1|exact H2].
  - apply in_app_or in Hi as [Hi|Hi]; [|destruct (IH i Hi) as (b & j & H1 & H2); exists b, j; split; [right; exact H1|exact H2]].
    unfold raw_items in Hi. apply in_map_iff in Hi as (n & <- & Hn). apply in_seq in Hn. pose proof (num_range 96 4 bl ltac:(lia)). exists bl, (Z.of_nat n). split; [left; reflexivity|]. split; [exact HF|]. split; [lia|]. split; [apply HR; lia|reflexivity].
  - apply in_map_iff in Hi as (n & <- & Hn). apply in_seq in Hn. exists bl, (Z.of_nat n). split; [left; reflexivity|]. split; [exact HF|]. split; [lia|]. split; [apply HR; lia|reflexivity].
Qed.
(** what any run does to the file *)
Lemma any_run okopen okend okf dev bs id b d' st : wf_bucket b -> length id = 16%nat -> 101 <= bs < 2^32 -> whole_reads dev bs -> 0 <= fst (dev_seek dev) < 2^63 ->
  doScanFS okopen okend okf dev bs id (Some b) = (d', st) ->
  exists b0 a, d' = Some (fold_left put_ins a b0) /\ (b0 = b \/ (get b metadataKey = None /\ b0 = put b metadataKey (newIndexMetadata (mkOptions false bs id max64 false)))) /\
    forall i, In i a -> device_item dev bs id i.
Proof.
  intros W Hlen Hb HW Hsz HR. assert (HN : forall st', doScanFS okopen okend okf dev bs id (Some b) = (Some b, st') -> exists b0 a, d' = Some (fold_left put_ins a b0) /\ (b0 = b \/ (get b metadataKey = None /\ b0 = put b metadataKey (newIndexMetadata (mkOptions false bs id max64 false)))) /\
    forall i, In i a -> device_item dev bs id i).
  { intros st' E. rewrite E in HR. injection HR as <- <-. exists b, []. split; [reflexivity|]. split; [left; reflexivity|]. intros i []. }
  destruct (bytes_eqb id (repeat x00 16)) eqn:EI; [apply (HN XFatal); unfold doScanFS; rewrite EI; reflexivity|].
  assert (Hid : id <> repeat x00 16) by (apply bytes_eqb_neq; exact EI).
  destruct (CheckDeviceSize (dev_seek dev) bs) as [size ok] eqn:ES. destruct ok; [|apply (HN XFatal); unfold doScanFS; rewrite EI, ES; reflexivity].
  assert (HS : sized dev bs size).
  { unfold CheckDeviceSize in ES. destruct (dev_seek dev) as [s o] eqn:ED. cbn [fst] in Hsz. unfold sized. rewrite ED. destruct o; [|discriminate]. unfold u64, SuperInfoOffset2 in ES.
    rewrite !(Z.mod_small s) in ES by lia. destruct (s <? bs) eqn:E1; [discriminate|]. rewrite (Z.mod_small (bs * 100)), (Z.mod_small (67108864 + bs * 100)) in ES by lia.
    destruct (s <? 67108864 + bs * 100) eqn:E2; [discriminate|]. injection ES as <-. split; [reflexivity|]. lia. }
  destruct (openIndex okopen (mkOptions false bs id max64 false) (Some b)) as [[d0 [ix|]]| |] eqn:EO.
  - destruct (opened_rw _ _ _ _ _ _ EO) as (b0 & -> & ->).
    destruct (blocks_exist (dev_read dev) bs (size - size mod bs) HW ltac:(lia) (Z.to_nat (size - size mod bs)) (65536 + bs)) as (bls & okr & DB); [destruct HS as (_ & H1 & H2 & H3); pose proof (Z.mod_pos_bound size bs ltac:(lia)); nia|].
    destruct (C68_any_faults okopen okend okf id dev bs size (Some b) (Some b0) _ bls okr HS Hb Hid EO DB) as (b1 & is & wh & a & z & st1 & E1 & HI & HA & HE & _). injection E1 as <-. rewrite HE in HR. injection HR as <- <-.
    exists b0, a. split; [reflexivity|]. split.
    + unfold openIndex in EO. unfold checkUpdateMetadata in EO. cbn [o_ReadOnly] in EO. destruct (get b metadataKey) as [m|] eqn:EG.
      * left. destruct (check_metadata _ m) as [e| |]; cbn [rbind] in EO; try discriminate. destruct e; cbn [orb] in EO; [destruct okopen|]; cbn [rbind] in EO; try discriminate; cbv -[put newIndexMetadata metadataKey max64] in EO; congruence.
      * right. split; [reflexivity|]. destruct okopen; cbn [rbind] in EO; try discriminate; cbv -[put newIndexMetadata metadataKey max64] in EO; congruence.
    + intros i Hi. destruct (items_from _ _ _ _ HI i) as (bl & j & H1 & H2 & H3 & H4 & H5); [rewrite HA; apply in_or_app; left; exact Hi|]. destruct (blocks_from _ _ _ _ _ _ DB bl H1) as (off & H6). exists off, bl, j. repeat (split; [assumption|]). assumption.
  - assert (d0 = Some b) by exact (open_none_same _ _ _ _ _ EO). subst d0. apply (HN XFatal). unfold doScanFS. rewrite EI, ES. cbn [negb]. replace (bs =? 0) with false by lia. rewrite EO. reflexivity.
  - apply (HN XPanic). unfold doScanFS. rewrite EI, ES. cbn [negb]. replace (bs =? 0) with false by lia. rewrite EO. reflexivity.
  - apply (HN XPanic). unfold doScanFS. rewrite EI, ES. cbn [negb]. replace (bs =? 0) with false by lia. rewrite EO. reflexivity.
Qed.
Lemma raw_item_25 bl j : 0 <= j -> item_readable bl j -> length (i_item (raw_item bl j)) = 25%nat.
Proof.
  intros Hj (HI & _). cbn [raw_item i_item]. apply Nat2Z.inj. change (Z.of_nat (length (sub (ihead j) 25 bl))) with (zlen (sub (ihead j) 25 bl)).
  unfold sub. rewrite zlen_firstn_le by lia. rewrite zlen_skipn_le by (unfold ihead in *; lia). lia.
Qed.
(** ** C88 *)
(** Whatever the options, the device and the failures: an entry of the old file is still there, unless the device has an item
    with the same owner, key and generation; and what is new comes from the device (or is the metadata record, if there was none). *)
Theorem C88_adds_partial : forall o okopen okend okf dev bs b d' st,
  wf_bucket b -> length (so_id o) = 16%nat -> 101 <= bs < 2^32 -> whole_reads dev bs -> 0 <= fst (dev_seek dev) < 2^63 ->
  doScanFS_opts okopen okend okf dev bs o (Some b) = (d', st) ->
  exists b', d' = Some b' /\ wf_bucket b' /\
    (forall k v, In (k, v) b -> In (k, v) b' \/ exists i, device_item dev bs (so_id o) i /\ newIndexKey (i_owner i) (i_key i) (i_gen i) = k) /\
    (forall k v, In (k, v) b' -> In (k, v) b \/ (k = metadataKey /\ get b metadataKey = None) \/
      exists i, device_item dev bs (so_id o) i /\ newIndexKey (i_owner i) (i_key i) (i_gen i) = k /\ v = i_item i ++ i_data i).
Proof.
  intros o okopen okend okf dev bs b d' st W Hlen Hb HW Hsz HR. destruct (any_run _ _ _ _ _ _ _ _ _ W Hlen Hb HW Hsz HR) as (b0 & a & -> & H0 & HA).
  assert (W0 : wf_bucket b0 /\ (forall e, In e b -> In e b0) /\ forall k v, In (k, v) b0 -> In (k, v) b \/ (k = metadataKey /\ get b metadataKey = None)).
  { destruct H0 as [->|[HG ->]]; [split; [exact W|]; split; [auto|auto]|]. destruct (put_spec b metadataKey (newIndexMetadata (mkOptions false bs (so_id o) max64 false)) W ltac:(reflexivity)) as [W1 HI]. split; [exact W1|]. split.
    - intros [k v] He. apply HI. right. split; [exact He|]. intros E. cbn [fst] in E. subst k. apply (get_In _ _ _ W) in He. congruence.
    - intros k v H. apply HI in H as [H|[H _]]; [right; split; [congruence|exact HG]|left; exact H]. }
  destruct W0 as (W0 & H1 & H2). destruct (puts_In a b0 W0) as [W' HI]. exists (fold_left put_ins a b0). split; [reflexivity|]. split; [exact W'|]. split.
  - intros k v He. destruct (existsb (fun i => bytes_eqb (ikey i) k) a) eqn:EX.
    + apply existsb_exists in EX as (i & Hi & E). right. exists i. split; [exact (HA i Hi)|]. apply bytes_eqb_eq in E. exact E.
    + left. apply HI. right. split; [exact (H1 _ He)|]. intros j Hj E. assert (X : existsb (fun i => bytes_eqb (ikey i) k) a = true) by (apply existsb_exists; exists j; split; [exact Hj|apply bytes_eqb_eq; exact E]). congruence.
  - intros k v He. apply HI in He as [(x & i & z & Ea & E & _)|[He _]].
    + right. right. assert (Hi : In i a) by (rewrite Ea; apply in_or_app; right; left; reflexivity). exists i. split; [exact (HA i Hi)|]. assert (k = ikey i) by congruence. assert (v = ival i) by congruence. split; [symmetry; assumption|]. subst v. unfold ival.
      destruct (HA i Hi) as (off & bl & j & R1 & _ & R2 & R3 & ->). apply insert_value_25. apply raw_item_25; [lia|exact R3].
    + destruct (H2 k v He) as [H|H]; auto.
Qed.
(** Two images of parts of one file system, one after the other into one file, again whatever the options: every item of either is
    there, the later one if both have it, and nothing else. *)
Theorem C88_two_images : forall o A B bs isA isB,
  big_enough A bs -> big_enough B bs -> 101 <= bs < 2^32 -> length (so_id o) = 16%nat -> so_id o <> repeat x00 16 ->
  image_items (so_id o) A bs isA -> image_items (so_id o) B bs isB ->
  exists b1 b2, doScanFS_opts true true no_faults (file_dev A) bs o None = (Some b1, XOk) /\
    doScanFS_opts true true no_faults (file_dev B) bs o (Some b1) = (Some b2, XOk) /\
    forall ow k g v, wf_tuple ow k g -> ow <> 2^64 - 1 ->
      stored b2 ow k g v <-> (exists a i c, isA ++ isB = a ++ i :: c /\ same_tuple i ow k g /\ v = i_item i ++ i_data i /\ forall j, In j c -> ~ same_tuple j ow k g).
Proof.
  intros o A B bs isA isB HA HB Hb Hlen Hid IA IB. set (id := so_id o) in *. destruct (open_none bs id Hlen) as (ix & HO). set (m := [(metadataKey, newIndexMetadata (mkOptions false bs id (2^64 - 1) false))]) in *.
  destruct (recon_run id A bs None _ ix HA Hid HO) as (b0 & E0 & HR). injection E0 as <-. rewrite (trace_items id A bs isA HA ltac:(lia) IA) in HR. cbn [fst snd] in HR.
  destruct (items_wf _ _ _ _ IA) as [WA1 WA2]. destruct (items_wf _ _ _ _ IB) as [WB1 WB2].
  pose proof (opened_after_open None (mkOptions false bs id (2^64 - 1) false) m ix ltac:(discriminate) Hlen HO) as Op. set (b1 := fold_left put_ins isA m) in *.
  destruct (reopen bs id None m ix b1) as (ix1 & HO1); [lia|exact Hlen|discriminate|exact HO|apply puts_opened; assumption|apply get_metadata_puts; assumption|].
  destruct (recon_run id B bs (Some b1) _ ix1 HB Hid HO1) as (b1' & E1 & HR1). injection E1 as <-. rewrite (trace_items id B bs isB HB ltac:(lia) IB) in HR1. cbn [fst snd] in HR1.
  exists b1, (fold_left put_ins isB b1). split; [exact HR|]. split; [exact HR1|]. intros ow k g v WT Ho. unfold b1. rewrite <- fold_left_app. rewrite (stored_after (isA ++ isB) m ow k g v (proj1 Op) ltac:(apply Forall_app; split; assumption) WT).
  assert (HV : forall i, In i (isA ++ isB) -> insert_value (i_item i) (i_data i) = i_item i ++ i_data i) by (intros i Hi; apply insert_value_25; rewrite Forall_forall in WA2, WB2; apply in_app_or in Hi as [Hi|Hi]; auto).
  split.
  - intros [(a & i & c & E & H1 & H2 & H3)|[[H|[]] _]].
    + exists a, i, c. rewrite <- HV by (rewrite E; apply in_or_app; right; left; reflexivity). auto.
    + exfalso. apply (f_equal fst) in H. cbn [fst] in H. rewrite metadata_tuple in H. apply newIndexKey_inj in H as (H & _); [congruence| |exact WT]. unfold wf_tuple, wf_Key, is_u64, is_u8. cbn [ObjectID KType KOffset]. lia.
  - intros (a & i & c & E & H1 & H2 & H3). left. exists a, i, c. rewrite HV by (rewrite E; apply in_or_app; right; left; reflexivity). auto.
Qed.
Print Assumptions C88_adds_partial. Print Assumptions C88_two_images.

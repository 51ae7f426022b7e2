(** Property theorems C37-C39: the recon command. *)
From Verif Require Import Go GoProofs Layout LayoutProofs SpecLayout LeafProofs StructProofs PropsLayout KeyFmt KeyProofs Bolt Store StoreProofs SpecStore RangeProofs PropsStore Session PropsSession IoUtil Recon.
From Coq Require Import ZifyBool ZifyNat ZifyN.
Ltac Zify.zify_post_hook ::= Z.div_mod_to_equations.

(** ** specification *)
(** the bytes [off, off+n) *)
Definition sub (off n : Z) (l : list byte) : list byte := firstn (Z.to_nat n) (skipn (Z.to_nat off) l).
(** the k-th block after the first superblock (which starts at 64 KiB) *)
Definition image_block (content : list byte) (bs : Z) (k : nat) : list byte := sub (65536 + bs * (Z.of_nat k + 1)) bs content.
(** how many complete blocks there are *)
Definition image_blocks (content : list byte) (bs : Z) : Z := (zlen content - 65536 - bs) / bs.
(** a block that is not a non-empty leaf of filesystem [id]: other filesystem id,
    item count 0, or level not 0 *)
Definition foreign (id bl : list byte) : Prop :=
  sub 32 16 bl <> id \/ le_decode (sub 96 4 bl) = 0 \/ sub 100 1 bl <> [x00].
(** the items of a leaf: each under owner and generation of the leaf, with its
    own key; the stored value is the item header followed by the data *)
Fixpoint leaf_items (h : d_header) (off : Z) (es : list leaf_entry) : list insertion :=
  match es with
  | [] => []
  | e :: r =>
      let o := off - zlen (le_data e) in
      mkIns (mkKey (k_objectid (le_key e)) (k_type (le_key e)) (k_offset (le_key e))) (h_owner h) (h_generation h)
        (ser (item_fields {| it_key := le_key e; it_offset := o; it_size := zlen (le_data e) |})) (le_data e) :: leaf_items h o r
  end.
(** block [bl] contributes the items [is] *)
Inductive contributes (id : list byte) (bs : Z) : list byte -> list insertion -> Prop :=
| c_foreign bl : foreign id bl -> contributes id bs bl []
| c_leaf h es gap : leaf_ok h bs es gap -> h_fsid h = id -> h_level h = 0 -> es <> [] -> h_owner h < 2^64 - 1 ->
    contributes id bs (leaf_block h bs es gap) (leaf_items h (bs - 101) es).
(** a regular file or block device with this content *)
Definition file_dev (content : list byte) : device := mkDev (zlen content, true) (file_reader content).
(** the device passes the size check *)
Definition big_enough (content : list byte) (bs : Z) : Prop :=
  0 < bs /\ 64 * 1024 * 1024 + bs * 100 <= zlen content /\ zlen content < 2^63.
Definition no_faults (_ _ : Z) : bool := true.

(** ** proofs: what a scan inserts, independently of the index *)
Fixpoint items_trace (l : slice) (n : nat) (i : Z) : list insertion * exit_status :=
  match n with
  | O => ([], XOk)
  | S n => match leaf_insertion l i with
           | Ok ins => let '(is, st) := items_trace l n (i + 1) in (ins :: is, st)
           | _ => ([], XPanic)
           end
  end.
Definition block_trace (id block : list byte) : list insertion * exit_status :=
  match (w <- wanted id (sl block) ;; if (w : bool) then n <- Leaf_Len (sl block) ;; Ok (Some n) else Ok None) with
  | Ok None => ([], XOk)
  | Ok (Some n) => items_trace (sl block) (Z.to_nat n) 0
  | _ => ([], XPanic)
  end.
Fixpoint blocks_trace (id content : list byte) (bs : Z) (n : nat) (k : nat) : list insertion * exit_status :=
  match n with
  | O => ([], XOk)
  | S n => let '(is, st) := block_trace id (image_block content bs k) in
           match st with
           | XOk => let '(is', st') := blocks_trace id content bs n (S k) in (is ++ is', st')
           | _ => (is, st)
           end
  end.
Lemma items_scan b gen l n : forall i is ix, durable b is gen ix ->
  exists ix', scan_items (fun _ => true) l n i ix = (ix', snd (items_trace l n i)) /\ durable b (is ++ fst (items_trace l n i)) gen ix'.
Proof.
  induction n as [|n IH]; intros i is ix D; cbn [scan_items items_trace].
  - exists ix. cbn [fst snd]. rewrite app_nil_r. auto.
  - destruct (leaf_insertion l i) as [ins| |]; [|exists ix; cbn [fst snd]; rewrite app_nil_r; auto..].
    destruct (insert_durable b is ins gen ix D) as (ix1 & -> & D1). destruct (IH (i + 1) _ _ D1) as (ix2 & E & D2).
    destruct (items_trace l n (i + 1)) as [is' st]. cbn [fst snd] in *. rewrite <- app_assoc in D2. exists ix2. auto.
Qed.
Lemma block_scan b gen id bl is ix : durable b is gen ix ->
  exists ix', scan_block (fun _ => true) id bl ix = (ix', snd (block_trace id bl)) /\ durable b (is ++ fst (block_trace id bl)) gen ix'.
Proof.
  intros D. unfold scan_block, block_trace. destruct (w <- _ ;; _) as [[n|]| |]; try (exists ix; cbn [fst snd]; rewrite app_nil_r; auto; fail).
  apply items_scan. exact D.
Qed.
Lemma zlen_firstn_le {A} n (l : list A) : 0 <= n -> zlen (firstn (Z.to_nat n) l) = Z.min n (zlen l).
Proof. intros H. unfold zlen. rewrite firstn_length. lia. Qed.
Lemma zlen_skipn_le {A} n (l : list A) : 0 <= n <= zlen l -> zlen (skipn (Z.to_nat n) l) = zlen l - n.
Proof. intros H. unfold zlen in *. rewrite skipn_length. lia. Qed.
Lemma read_full content buf off : 0 <= off -> off + zlen buf <= zlen content -> zlen content < 2^63 ->
  ReadBlockAt (file_reader content) buf off = (sub off (zlen buf) content, None).
Proof.
  intros H0 H1 H2. pose proof (zlen_nonneg buf) as Hb. unfold ReadBlockAt, file_reader.
  assert (Ei : i64 off = off) by (unfold i64; rewrite Z.mod_small by lia; lia).
  rewrite Ei. replace (off <? 0) with false by lia.
  assert (L : zlen (firstn (Z.to_nat (zlen buf)) (skipn (Z.to_nat off) content)) = zlen buf).
  { rewrite zlen_firstn_le by lia. rewrite zlen_skipn_le by lia. lia. }
  cbv zeta. rewrite L. replace (zlen buf <? zlen buf) with false by lia. rewrite Z.eqb_refl. unfold sub.
  set (D := firstn _ _) in *. clearbody D. rewrite (skipn_all2 buf) by (unfold zlen in L; lia). rewrite app_nil_r. reflexivity.
Qed.
Lemma read_short content buf off : 0 <= off < zlen content -> zlen content < off + zlen buf -> zlen content < 2^63 ->
  exists d, ReadBlockAt (file_reader content) buf off = (d, Some EOF).
Proof.
  intros H0 H1 H2. unfold ReadBlockAt, file_reader.
  assert (Ei : i64 off = off) by (unfold i64; rewrite Z.mod_small by lia; lia).
  rewrite Ei. replace (off <? 0) with false by lia. cbv zeta.
  assert (L : zlen (firstn (Z.to_nat (zlen buf)) (skipn (Z.to_nat off) content)) < zlen buf).
  { rewrite zlen_firstn_le by apply zlen_nonneg. rewrite zlen_skipn_le by lia. lia. }
  replace (zlen _ <? zlen buf) with true by lia. eauto.
Qed.

Lemma image_blocks_nonneg content bs : big_enough content bs -> 0 <= image_blocks content bs.
Proof. intros (H0 & H1 & H2). unfold image_blocks. apply Z.div_pos; lia. Qed.
Lemma loop_scan b gen id content bs : big_enough content bs -> forall n k fuel buf is ix,
  zlen buf = bs -> Z.of_nat (k + n) = image_blocks content bs -> (n < fuel)%nat -> durable b is gen ix ->
  exists ix', scan_loop fuel no_faults (file_reader content) id bs (zlen content - zlen content mod bs) (65536 + bs * (Z.of_nat k + 1)) buf ix =
    (ix', snd (blocks_trace id content bs n k)) /\ durable b (is ++ fst (blocks_trace id content bs n k)) gen ix'.
Proof.
  intros (H0 & H1 & H2). pose proof (Z.mod_pos_bound (zlen content) bs H0) as Hm.
  set (m := zlen content mod bs) in *. clearbody m.
  assert (HB : forall x, x < image_blocks content bs <-> bs * x + bs <= zlen content - 65536 - bs).
  { intros x. unfold image_blocks. split; intros H.
    - pose proof (Z.mul_div_le (zlen content - 65536 - bs) bs H0). nia.
    - apply Z.lt_le_trans with (x + 1); [lia|]. apply Z.div_le_lower_bound; nia. }
  induction n as [|n IH]; intros k fuel buf is ix Hbuf Hk Hf D; (destruct fuel as [|fuel]; [lia|]); cbn [scan_loop blocks_trace].
  - set (off := 65536 + bs * (Z.of_nat k + 1)).
    assert (Hoff : zlen content < off + bs) by (unfold off; specialize (HB (Z.of_nat k)); lia).
    exists ix. cbn [fst snd]. rewrite app_nil_r. split; [|exact D].
    destruct (off <? zlen content - m) eqn:E; [|reflexivity].
    destruct (read_short content buf off) as [d ->]; [unfold off in *; nia|lia|exact H2|]. reflexivity.
  - set (off := 65536 + bs * (Z.of_nat k + 1)).
    assert (Hoff : off + bs <= zlen content) by (unfold off; specialize (HB (Z.of_nat k)); lia).
    replace (off <? zlen content - m) with true by lia.
    rewrite read_full by (try exact H2; try lia; unfold off; nia). rewrite Hbuf.
    change (sub off bs content) with (image_block content bs k).
    destruct (block_scan b gen id (image_block content bs k) is ix D) as (ix1 & E1 & D1). unfold no_faults at 1. rewrite E1.
    destruct (block_trace id (image_block content bs k)) as [is1 st1] eqn:ET. cbn [fst snd] in *.
    destruct st1; [|exists ix1; cbn [fst snd]; auto..].
    assert (Eo : u64 (off + bs) = 65536 + bs * (Z.of_nat (S k) + 1)).
    { unfold u64. rewrite Z.mod_small; unfold off in *; nia. }
    rewrite Eo. destruct (IH (S k) fuel (image_block content bs k) (is ++ is1) ix1) as (ix2 & E2 & D2); try assumption; try lia.
    { unfold image_block, sub. rewrite zlen_firstn_le by lia. rewrite zlen_skipn_le by (unfold off in *; nia). unfold off in *. lia. }
    exists ix2. rewrite E2. destruct (blocks_trace id content bs n (S k)) as [is2 st2]. cbn [fst snd] in *. rewrite app_assoc. auto.
Qed.
Lemma items_no_fatal l n : forall i, snd (items_trace l n i) <> XFatal.
Proof.
  induction n as [|n IH]; intros i; cbn [items_trace]; [discriminate|]. destruct (leaf_insertion l i); [|discriminate..].
  specialize (IH (i + 1)). destruct (items_trace l n (i + 1)). exact IH.
Qed.
Lemma blocks_no_fatal id content bs n : forall k, snd (blocks_trace id content bs n k) <> XFatal.
Proof.
  induction n as [|n IH]; intros k; cbn [blocks_trace]; [discriminate|].
  assert (HB : snd (block_trace id (image_block content bs k)) <> XFatal).
  { unfold block_trace. destruct (w <- _ ;; _) as [[m|]| |]; try discriminate. apply items_no_fatal. }
  destruct (block_trace id (image_block content bs k)) as [is st]. cbn [snd] in HB. destruct st; [|congruence|discriminate].
  specialize (IH (S k)). destruct (blocks_trace id content bs n (S k)). exact IH.
Qed.
(** the whole command without write faults *)
Definition image_trace (id content : list byte) (bs : Z) := blocks_trace id content bs (Z.to_nat (image_blocks content bs)) 0.
Lemma size_check content bs : big_enough content bs -> CheckDeviceSize (zlen content, true) bs = (zlen content, true).
Proof.
  intros (H0 & H1 & H2). unfold CheckDeviceSize, SuperInfoOffset2. unfold u64. rewrite !(Z.mod_small) by lia.
  replace (zlen content <? bs) with false by lia. replace (zlen content <? 67108864 + bs * 100) with false by lia. reflexivity.
Qed.
Lemma recon_run id content bs d d0 ix0 : big_enough content bs -> id <> repeat x00 16 ->
  openIndex true (mkOptions false bs id max64 false) d = Ok (d0, Some ix0) ->
  exists b0, d0 = Some b0 /\
  doScanFS true true no_faults (file_dev content) bs id d = (Some (fold_left put_ins (fst (image_trace id content bs)) b0), snd (image_trace id content bs)).
Proof.
  intros HB Hid HO. pose proof HB as (H0 & H1 & H2). unfold doScanFS. rewrite (proj2 (bytes_eqb_neq _ _) Hid). cbn [file_dev dev_seek dev_read].
  rewrite size_check by exact HB. cbn [negb]. replace (bs =? 0) with false by lia. rewrite HO.
  assert (HI : exists b0, d0 = Some b0 /\ ix0 = rw_open b0 max64).
  { unfold openIndex in HO. destruct (checkUpdateMetadata _ _ d) as [[d1 e]| |] eqn:EC; cbn [rbind] in HO; try discriminate. destruct e; [|discriminate].
    unfold ensureTx, begin_tx in HO. cbn [ix_tx o_ReadOnly negb andb ix_readonly ix_disk ix_bucket ix_txNum ix_Generation o_Generation] in HO.
    assert (Hd1 : exists b0, d1 = Some b0).
    { unfold checkUpdateMetadata in EC. cbn [o_ReadOnly orb] in EC. destruct d as [b|].
      - destruct (get b metadataKey) as [m|]; [|injection EC as <-; eauto].
        destruct (check_metadata _ m) as [e'| |]; cbn [rbind] in EC; try discriminate. destruct e'; [injection EC as <-; eauto|discriminate].
      - injection EC as <-; eauto. }
    destruct Hd1 as [b0 ->]. injection HO as <- <-. exists b0. split; reflexivity. }
  destruct HI as (b0 & -> & ->). exists b0. split; [reflexivity|].
  assert (D0 : durable b0 [] max64 (rw_open b0 max64)).
  { split; [reflexivity|]. split; [reflexivity|]. exists [], []. cbn. repeat split; auto; lia. }
  assert (Eo : u64 (SuperInfoOffset + bs) = 65536 + bs * (Z.of_nat 0 + 1)) by (unfold u64, SuperInfoOffset; rewrite Z.mod_small by lia; lia).
  rewrite Eo. pose proof (image_blocks_nonneg content bs HB) as HN.
  set (fuel := Z.to_nat _).
  destruct (loop_scan b0 max64 id content bs HB (Z.to_nat (image_blocks content bs)) 0 fuel (repeat x00 (Z.to_nat bs)) [] (rw_open b0 max64)) as (ix' & E & D); try assumption.
  { unfold zlen. rewrite repeat_length. lia. }
  { lia. }
  { unfold fuel, image_blocks. assert ((zlen content - 65536 - bs) / bs <= (zlen content - zlen content mod bs) / bs); [|lia].
    apply Z.div_le_mono; [lia|]. pose proof (Z.mod_pos_bound (zlen content) bs H0). lia. }
  rewrite E. cbn [app] in D. fold (image_trace id content bs) in D |- *. destruct (image_trace id content bs) as [is st] eqn:E0. unfold image_trace in E0. cbn [fst snd] in *.
  assert (Hst : st <> XFatal) by (pose proof (blocks_no_fatal id content bs (Z.to_nat (image_blocks content bs)) 0) as Hx; rewrite E0 in Hx; exact Hx).
  destruct D as (Hro & Hg & a & c & Hac & Hd & Hn & Hle & Htx).
  assert (HC : exists ix2, Commit true ix' = (ix2, ENone) /\ Close true ix2 = Ok (Some (fold_left put_ins is b0))).
  { destruct Htx as [[Ht Hb]|(Ht & Hb & Hc)].
    - unfold Commit. rewrite Ht. cbn [tx_writable andb tx_bucket]. eexists. split; [reflexivity|]. unfold Close. cbn [ix_readonly]. rewrite Hro. reflexivity.
    - subst c. rewrite app_nil_r in Hac. subst a. unfold Commit. rewrite Ht. eexists. split; [reflexivity|]. unfold Close, Commit. rewrite Hro, Ht. cbn [fst]. rewrite Hd. reflexivity. }
  destruct HC as (ix2 & -> & ->). destruct st; [reflexivity|congruence|reflexivity].
Qed.

(** ** the items of a well-formed leaf *)
Lemma leaf_item_bytes h bs es gap i e : leaf_ok h bs es gap -> nth_error es i = Some e ->
  exists it, Leaf_Item (sl (leaf_block h bs es gap)) (Z.of_nat i) = Ok it /\ sbytes it = ser (item_fields (entry_item bs es i e)).
Proof.
  intros OK Hn. pose proof (leaf_i_lt h bs es gap OK i e Hn) as Hlt. pose proof (leaf_cap h bs es gap OK) as Hc.
  rewrite Leaf_Item_ok by (try apply sl_wf; try lia). eexists. split; [reflexivity|].
  unfold sbytes. cbn [s_arr s_len sl].
  destruct (leaf_heads_nth (bs - 101) es i e Hn) as (o & -> & H1 & H2).
  pose proof OK as (Hfh & _ & Hfs & _).
  assert (E : leaf_heads (bs - 101) es = leaf_heads (bs - 101) (firstn i es) ++ item_fields (entry_item bs es i e) ++ leaf_heads (bs - 101 - zlen (concat (map le_data (firstn (S i) es)))) (skipn (S i) es)).
  { rewrite <- (firstn_skipn (5 * i) (leaf_heads (bs - 101) es)) at 1. rewrite H1, H2. reflexivity. }
  assert (F1 : fits (leaf_heads (bs - 101) (firstn i es)) /\ fits (item_fields (entry_item bs es i e))).
  { rewrite E in Hfs. apply fits_app in Hfs as [A B]. apply fits_app in B as [B _]. split; assumption. }
  destruct F1 as [F1 F2].
  unfold leaf_block. rewrite E, !ser_app, <- !app_assoc.
  assert (L1 : zlen (ser (header_fields h) ++ ser (leaf_heads (bs - 101) (firstn i es))) = 101 + 25 * Z.of_nat i).
  { rewrite zlen_app, !zlen_ser by assumption. rewrite sumw_heads. change (sumw (header_fields h)) with 101.
    assert (i < length es)%nat by (apply nth_error_Some; congruence). unfold zlen. rewrite firstn_length. lia. }
  rewrite app_assoc. rewrite skipn_app. rewrite skipn_all2 by (unfold zlen in L1; lia).
  replace (Z.to_nat (101 + 25 * Z.of_nat i) - length (ser (header_fields h) ++ ser (leaf_heads (bs - 101) (firstn i es))))%nat with 0%nat by (unfold zlen in L1; lia).
  cbn [skipn app].
  assert (L2 : zlen (ser (item_fields (entry_item bs es i e))) = 25) by (rewrite zlen_ser by exact F2; reflexivity).
  set (X := ser (item_fields (entry_item bs es i e))) in *. clearbody X. rewrite firstn_app.
  rewrite firstn_all2 by (unfold zlen in L2; lia).
  replace (Z.to_nat 25 - length X)%nat with 0%nat by (unfold zlen in L2; lia). cbn [firstn]. apply app_nil_r.
Qed.
Lemma leaf_items_nth h : forall es off i e, nth_error es i = Some e ->
  nth_error (leaf_items h off es) i = Some (mkIns (mkKey (k_objectid (le_key e)) (k_type (le_key e)) (k_offset (le_key e))) (h_owner h) (h_generation h)
    (ser (item_fields {| it_key := le_key e; it_offset := off - zlen (concat (map le_data (firstn (S i) es))); it_size := zlen (le_data e) |})) (le_data e)).
Proof.
  induction es as [|x es IH]; intros off i e Hn; [destruct i; discriminate|]. destruct i as [|i].
  - cbn [nth_error] in *. injection Hn as ->. cbn [leaf_items nth_error firstn map concat]. cbv zeta. rewrite app_nil_r. reflexivity.
  - cbn [nth_error leaf_items] in *. cbv zeta. cbn [nth_error]. rewrite (IH _ i e Hn).
    change (firstn (S (S i)) (x :: es)) with (x :: firstn (S i) es). cbn [map concat]. rewrite zlen_app. do 4 f_equal. f_equal. lia.
Qed.
Lemma leaf_items_length h es : forall off, length (leaf_items h off es) = length es.
Proof. induction es as [|x es IH]; intros off; [reflexivity|]. cbn [leaf_items length]. cbv zeta. cbn [length]. rewrite IH. reflexivity. Qed.
Lemma leaf_trace h bs es gap : leaf_ok h bs es gap -> items_trace (sl (leaf_block h bs es gap)) (length es) 0 = (leaf_items h (bs - 101) es, XOk).
Proof.
  intros OK. set (l := sl (leaf_block h bs es gap)).
  assert (HO : Header_Owner l = Ok (h_owner h)) by exact (f64 _ _ 6 _ (leaf_carries h bs es gap OK) eq_refl).
  assert (HG : Header_Generation l = Ok (h_generation h)) by exact (f64 _ _ 5 _ (leaf_carries h bs es gap OK) eq_refl).
  assert (HI : forall i e, nth_error es i = Some e -> exists ins, leaf_insertion l (Z.of_nat i) = Ok ins /\ nth_error (leaf_items h (bs - 101) es) i = Some ins).
  { intros i e Hn. unfold leaf_insertion, l. rewrite (leaf_Key h bs es gap OK i e Hn). cbn [rbind].
    destruct (leaf_item_bytes h bs es gap i e OK Hn) as (it & -> & Hb). cbn [rbind].
    pose proof (leaf_Data h bs es gap OK i e Hn) as HD. destruct (Leaf_Data (sl (leaf_block h bs es gap)) (Z.of_nat i)) as [d| |]; cbn [rbind] in *; try discriminate.
    injection HD as HD. fold l. rewrite HO, HG. cbn [rbind]. eexists. split; [reflexivity|]. rewrite (leaf_items_nth h es (bs - 101) i e Hn), Hb, HD. reflexivity. }
  assert (G : forall n i, (i + n = length es)%nat -> items_trace l n (Z.of_nat i) = (skipn i (leaf_items h (bs - 101) es), XOk)).
  { induction n as [|n IH]; intros i Hi; cbn [items_trace].
    - rewrite skipn_all2 by (rewrite leaf_items_length; lia). reflexivity.
    - destruct (nth_error es i) as [e|] eqn:En; [|apply nth_error_None in En; lia]. destruct (HI i e En) as (ins & -> & Hni).
      replace (Z.of_nat i + 1) with (Z.of_nat (S i)) by lia. rewrite IH by lia.
      f_equal. clear -Hni. revert i Hni. generalize (leaf_items h (bs - 101) es) as L. induction L as [|x L IHL]; intros [|i] Hni; try discriminate.
      + cbn in *. injection Hni as ->. reflexivity.
      + cbn [skipn nth_error] in *. apply IHL. exact Hni. }
  change 0 with (Z.of_nat 0). rewrite (G (length es) 0%nat) by lia. reflexivity.
Qed.
Lemma wanted_exact id bl : 101 <= zlen bl ->
  wanted id (sl bl) = Ok (bytes_eqb (sub 32 16 bl) id && negb (le_decode (sub 96 4 bl) =? 0) && (bz (nth 100 bl x00) =? 0)).
Proof.
  intros H. unfold wanted, Header_FSID, Header_NrItems, Header_IsLeaf, Header_Level.
  change headerFSID with 32. change headerNrItems with 96. change headerLevel with 100.
  rewrite atUUID_exact, at32_exact by apply sl_wf. rewrite at8_exact.
  assert (R : forall o n, 0 <= o -> 0 <= n -> o + n <= 101 -> readable o n (sl bl) = true).
  { intros o n A B C. apply readable_iff. cbn [sl s_len]. rewrite scap_sl. lia. }
  rewrite !R by lia. cbn [rbind]. change (bytes_at 32 16 (sl bl)) with (sub 32 16 bl). change (bytes_at 96 4 (sl bl)) with (sub 96 4 bl).
  destruct (bytes_eqb (sub 32 16 bl) id); [|reflexivity]. cbn [negb andb]. destruct (le_decode (sub 96 4 bl) =? 0); [reflexivity|].
  cbn [sl s_len s_arr]. replace ((0 <=? 100) && (100 <? zlen bl)) with true by lia. cbn [rbind negb andb]. reflexivity.
Qed.
Lemma sub1_nth bl : 101 <= zlen bl -> sub 100 1 bl = [nth 100 bl x00].
Proof.
  intros H. unfold sub. change (Z.to_nat 1) with 1%nat. change (Z.to_nat 100) with 100%nat. unfold zlen in H.
  destruct (skipn 100 bl) as [|x r] eqn:E.
  - apply (f_equal (@length byte)) in E. rewrite skipn_length in E. cbn in E. lia.
  - cbn [firstn]. f_equal. rewrite <- (firstn_skipn 100 bl), E, app_nth2; rewrite firstn_length; [|lia]. replace (100 - Nat.min 100 (length bl))%nat with 0%nat by lia. reflexivity.
Qed.
Lemma contributes_trace id bs bl is : 101 <= bs -> zlen bl = bs -> contributes id bs bl is -> block_trace id bl = (is, XOk).
Proof.
  intros Hb Hz H. unfold block_trace. rewrite wanted_exact by lia. cbn [rbind]. destruct H as [bl Hf|h es gap OK Hid Hlev Hne Ho].
  - assert (E : bytes_eqb (sub 32 16 bl) id && negb (le_decode (sub 96 4 bl) =? 0) && (bz (nth 100 bl x00) =? 0) = false).
    { destruct Hf as [Hf|[Hf|Hf]].
      - rewrite (proj2 (bytes_eqb_neq _ _) Hf). reflexivity.
      - rewrite Hf, Z.eqb_refl. rewrite andb_false_r. reflexivity.
      - rewrite sub1_nth in Hf by lia. assert (HX : bz (nth 100 bl x00) <> 0); [|rewrite (proj2 (Z.eqb_neq _ _) HX); apply andb_false_r].
        intros E. apply Hf. f_equal. apply (f_equal zb) in E. rewrite zb_bz in E. exact E. }
    rewrite E. reflexivity.
  - assert (E1 : Header_FSID (sl (leaf_block h bs es gap)) = Ok (h_fsid h)) by exact (fU _ _ 1 _ (leaf_carries h bs es gap OK) eq_refl).
    assert (E3 : Header_Level (sl (leaf_block h bs es gap)) = Ok (h_level h)) by exact (f8 _ _ 8 _ (leaf_carries h bs es gap OK) eq_refl).
    pose proof (leaf_NrItems h bs es gap OK) as E2. pose proof (wanted_exact id (leaf_block h bs es gap) ltac:(lia)) as W.
    assert (W2 : wanted id (sl (leaf_block h bs es gap)) = Ok true).
    { unfold wanted. rewrite E1. cbn [rbind]. rewrite Hid, bytes_eqb_refl. cbn [negb]. rewrite E2. cbn [rbind].
      replace (zlen es =? 0) with false by (unfold zlen; destruct es; [congruence|cbn [length]; lia]). unfold Header_IsLeaf. rewrite E3. cbn [rbind]. rewrite Hlev. reflexivity. }
    rewrite W2 in W. injection W as <-. rewrite (leaf_Len h bs es gap OK). cbn [rbind].
    replace (Z.to_nat (zlen es)) with (length es) by (unfold zlen; lia). apply leaf_trace. exact OK.
Qed.
Lemma blocks_trace_concat id content bs : big_enough content bs -> 101 <= bs -> forall n k iss, length iss = n ->
  Z.of_nat (k + n) <= image_blocks content bs ->
  (forall j is, nth_error iss j = Some is -> contributes id bs (image_block content bs (k + j)) is) ->
  blocks_trace id content bs n k = (concat iss, XOk).
Proof.
  intros HB Hb. induction n as [|n IH]; intros k iss HL Hk H; (destruct iss as [|is iss]; try discriminate); [reflexivity|]. cbn [blocks_trace concat].
  assert (Hz : zlen (image_block content bs k) = bs).
  { destruct HB as (H0 & H1 & H2). unfold image_block, sub. rewrite zlen_firstn_le by lia.
    assert (65536 + bs * (Z.of_nat k + 1) + bs <= zlen content).
    { unfold image_blocks in Hk. pose proof (Z.mul_div_le (zlen content - 65536 - bs) bs H0). nia. }
    rewrite zlen_skipn_le by nia. lia. }
  rewrite (contributes_trace id bs _ is Hb Hz); [|pose proof (H 0%nat is eq_refl) as H'; rewrite Nat.add_0_r in H'; exact H'].
  rewrite (IH (S k) iss); [reflexivity|cbn in HL; lia|lia|]. intros j is' Hj. replace (S k + j)%nat with (k + S j)%nat by lia. apply H. exact Hj.
Qed.
(** [is] is, in order, what the blocks of the image contribute *)
Definition image_items (id content : list byte) (bs : Z) (is : list insertion) : Prop :=
  exists iss, is = concat iss /\ zlen iss = image_blocks content bs /\
    forall k i, nth_error iss k = Some i -> contributes id bs (image_block content bs k) i.
Lemma trace_items id content bs is : big_enough content bs -> 101 <= bs -> image_items id content bs is -> image_trace id content bs = (is, XOk).
Proof.
  intros HB Hb (iss & -> & HL & H). unfold image_trace. pose proof (image_blocks_nonneg content bs HB). apply blocks_trace_concat; try assumption; unfold zlen in HL; lia.
Qed.
Lemma contributes_wf id bs bl is : contributes id bs bl is -> Forall wf_ins is /\ Forall (fun i => length (i_item i) = 25%nat) is.
Proof.
  intros [bl' _|h es gap OK _ _ _ Ho]; [split; constructor|].
  destruct OK as (Hh & _ & Hf & _). assert (HG : is_u64 (h_generation h) /\ is_u64 (h_owner h)).
  { unfold fits, header_fields in Hh. rewrite Forall_forall in Hh. split.
    - apply (Hh (I 8 (h_generation h))). cbn. tauto.
    - apply (Hh (I 8 (h_owner h))). cbn. tauto. }
  revert Hf. generalize (bs - 101). induction es as [|e es IH]; intros off Hf; cbn [leaf_items]; [split; constructor|]. cbv zeta.
  cbn [leaf_heads] in Hf. cbv zeta in Hf. apply fits_app in Hf as [F1 F2]. destruct (IH _ F2) as [A B].
  assert (WT : wf_tuple (h_owner h) (mkKey (k_objectid (le_key e)) (k_type (le_key e)) (k_offset (le_key e))) (h_generation h)).
  { unfold fits, item_fields, key_fields in F1. cbn [app it_key] in F1. rewrite Forall_forall in F1.
    split; [apply HG|]. split; [|apply HG]. split; [|split]; cbn [ObjectID KType KOffset].
    - apply (F1 (I 8 (k_objectid (le_key e)))). cbn. tauto.
    - apply (F1 (I 1 (k_type (le_key e)))). cbn. tauto.
    - apply (F1 (I 8 (k_offset (le_key e)))). cbn. tauto. }
  split; constructor; try assumption.
  - split; [exact WT|]. cbn [i_owner i_key i_gen]. intros E. pose proof (f_equal ik_Owner E) as E1.
    destruct (ik_built _ _ _ WT) as (A1 & _). rewrite A1 in E1. vm_compute ik_Owner in E1. lia.
  - cbn [i_item]. apply Nat2Z.inj. change (Z.of_nat (length ?x)) with (zlen x). fold (zlen (ser (item_fields {| it_key := le_key e; it_offset := off - zlen (le_data e); it_size := zlen (le_data e) |}))).
    rewrite zlen_ser by exact F1. reflexivity.
Qed.
Lemma items_wf id content bs is : image_items id content bs is -> Forall wf_ins is /\ Forall (fun i => length (i_item i) = 25%nat) is.
Proof.
  intros (iss & -> & _ & H). assert (HA : forall i, In i iss -> Forall wf_ins i /\ Forall (fun i => length (i_item i) = 25%nat) i).
  { intros i Hi. apply In_nth_error in Hi as [k Hk]. exact (contributes_wf _ _ _ _ (H k i Hk)). }
  clear H. induction iss as [|i iss IH]; cbn [concat]; [split; constructor|].
  destruct (HA i (or_introl eq_refl)) as [A B]. destruct IH as [C D]; [intros j Hj; apply HA; right; exact Hj|].
  rewrite !Forall_app. auto.
Qed.
Lemma opened_after_open d o b ix : (forall b1, d = Some b1 -> wf_bucket b1) -> length (o_FSID o) = 16%nat ->
  openIndex true o d = Ok (Some b, Some ix) -> opened b.
Proof.
  intros Hwf HF HO. unfold openIndex in HO. destruct (checkUpdateMetadata true o d) as [[d1 e]| |] eqn:EC; cbn [rbind] in HO; try discriminate.
  assert (HD : d1 = Some b /\ e = ENone).
  { destruct e; [|discriminate]. destruct (ensureTx _ _ _) as [ix1 e1]. destruct e1; [|discriminate]. split; [congruence|reflexivity]. }
  destruct HD as [-> ->].
  assert (PM : forall b1 m, wf_bucket b1 -> opened (put b1 metadataKey m)).
  { intros b1 m W. destruct (put_spec b1 metadataKey m W) as [W' HI]; [reflexivity|]. split; [exact W'|]. exists m. apply HI. left. reflexivity. }
  unfold checkUpdateMetadata in EC. destruct d as [b1|].
  - specialize (Hwf b1 eq_refl). destruct (get b1 metadataKey) as [m|] eqn:G.
    + destruct (check_metadata o m) as [e| |]; cbn [rbind] in EC; try discriminate. destruct e; [|discriminate].
      assert (b1 = b) by (destruct (o_ReadOnly o || true); congruence). subst b1. split; [exact Hwf|]. exists m. apply get_In in G; assumption.
    + destruct (o_ReadOnly o); [discriminate|]. injection EC as <-. apply PM. exact Hwf.
  - destruct (o_ReadOnly o); [discriminate|]. injection EC as <-. apply (PM [] (newIndexMetadata o)). split; [cbn; exact Logic.I|constructor].
Qed.

(** ** C37 *)
(** A scan of an image whose blocks are well-formed leaves of the filesystem or
    foreign: it succeeds, and afterwards the file holds under (owner, key,
    generation) the item header and data of the last such item in the image, or
    what it held before if there is none. *)
Theorem C37_exact_partial : forall id content bs d b0 ix0 is,
  big_enough content bs -> 101 <= bs -> length id = 16%nat -> id <> repeat x00 16 -> (forall b1, d = Some b1 -> wf_bucket b1) ->
  openIndex true (mkOptions false bs id (2^64 - 1) false) d = Ok (Some b0, Some ix0) ->
  image_items id content bs is ->
  exists b', doScanFS true true no_faults (file_dev content) bs id d = (Some b', XOk) /\ opened b' /\
    get b' metadataKey = get b0 metadataKey /\
    forall o k g v, wf_tuple o k g -> ~ (o = 2^64 - 1) ->
      (stored b' o k g v <->
       (exists a i c, is = a ++ i :: c /\ same_tuple i o k g /\ v = i_item i ++ i_data i /\ forall j, In j c -> ~ same_tuple j o k g) \/
       (stored b0 o k g v /\ forall j, In j is -> ~ same_tuple j o k g)).
Proof.
  intros id content bs d b0 ix0 is HB Hb Hlen Hid Hwf HO HI.
  destruct (recon_run id content bs d (Some b0) ix0 HB Hid HO) as (b0' & E0 & HR). injection E0 as <-.
  rewrite (trace_items id content bs is HB Hb HI) in HR. cbn [fst snd] in HR. destruct (items_wf _ _ _ _ HI) as [W1 W2].
  pose proof (opened_after_open d (mkOptions false bs id (2^64-1) false) b0 ix0 Hwf Hlen HO) as Op.
  exists (fold_left put_ins is b0). split; [exact HR|]. split; [apply puts_opened; assumption|]. split.
  - clear -W1 Op. revert b0 Op. induction is as [|i is IH]; intros b0 Op; [reflexivity|]. inversion W1 as [|? ? [WT Hne] W1']; subst. cbn [fold_left].
    rewrite IH; [|exact W1'|apply put_opened; [exact Op|apply newIndexKey_length|exact Hne]].
    destruct Op as [W [m Hm]]. destruct (put_spec b0 (newIndexKey (i_owner i) (i_key i) (i_gen i)) (insert_value (i_item i) (i_data i)) W (newIndexKey_length _ _ _)) as [W' HP].
    assert (G : get b0 metadataKey = Some m) by (apply get_In; assumption). rewrite G. apply get_In; [exact W'|]. apply HP. right. split; [exact Hm|]. cbn [fst]. congruence.
  - intros o k g v HT Ho. rewrite (stored_after is b0 o k g v (proj1 Op) W1 HT).
    assert (HV : forall i, In i is -> insert_value (i_item i) (i_data i) = i_item i ++ i_data i).
    { intros i Hi. apply insert_value_25. rewrite Forall_forall in W2. exact (W2 i Hi). }
    split.
    + intros [(a & i & c & E & A & -> & B)|H]; [left|right; exact H]. exists a, i, c. split; [exact E|]. split; [exact A|]. split; [|exact B].
      apply HV. rewrite E. apply in_or_app. right. left. reflexivity.
    + intros [(a & i & c & E & A & -> & B)|H]; [left|right; exact H]. exists a, i, c. split; [exact E|]. split; [exact A|]. split; [|exact B].
      symmetry. apply HV. rewrite E. apply in_or_app. right. left. reflexivity.
Qed.

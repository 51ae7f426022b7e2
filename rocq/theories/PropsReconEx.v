(** C37-C39: concrete images: examples and refutations. *)
From Verif Require Import Go GoProofs Layout LayoutProofs SpecLayout LeafProofs StructProofs PropsLayout KeyFmt KeyProofs Bolt Store StoreProofs SpecStore RangeProofs PropsStore Session PropsSession IoUtil Recon PropsRecon PropsReconAny.
From Coq Require Import ZifyBool ZifyNat ZifyN.
Ltac Zify.zify_post_hook ::= Z.div_mod_to_equations.

(** an image with the given blocks right after the first superblock, all other
    bytes zero, [n] zero bytes at the end *)
Definition image_of (bs : Z) (bls : list (list byte)) (n : Z) : list byte :=
  repeat x00 (Z.to_nat (65536 + bs)) ++ concat bls ++ repeat x00 (Z.to_nat n).
Definition zeros (l : list byte) : Prop := Forall (fun x => x = x00) l.
Lemma zeros_repeat n : zeros (repeat x00 n).
Proof. apply Forall_forall. intros x H. exact (repeat_spec _ _ _ H). Qed.
Lemma In_skipn' {A} n : forall (l : list A) x, In x (skipn n l) -> In x l.
Proof. induction n as [|n IH]; intros [|y l] x H; cbn in *; auto. Qed.
Lemma In_firstn' {A} n : forall (l : list A) x, In x (firstn n l) -> In x l.
Proof. induction n as [|n IH]; intros [|y l] x H; cbn in *; try contradiction. destruct H; auto. Qed.
Lemma zeros_sub off n l : zeros l -> zeros (sub off n l).
Proof. unfold zeros, sub. rewrite !Forall_forall. intros H x Hx. apply H. apply In_firstn' in Hx. exact (In_skipn' _ _ _ Hx). Qed.
Lemma zeros_num off n l : zeros l -> num off n l = 0.
Proof.
  intros H. unfold num. apply (zeros_sub off n) in H. induction H as [|x r -> H IH]; [reflexivity|]. cbn [le_decode]. rewrite IH. reflexivity.
Qed.
Lemma zeros_foreign id l : zeros l -> foreign id l.
Proof. intros H. right. left. exact (zeros_num 96 4 l H). Qed.
Section Image.
  Variables (bs n : Z) (bls : list (list byte)).
  Hypothesis Hb : 0 < bs.
  Hypothesis Hn : 0 <= n.
  Hypothesis HL : Forall (fun bl => zlen bl = bs) bls.
  Lemma concat_len : zlen (concat bls) = bs * zlen bls.
  Proof.
    clear Hn n. revert HL. induction bls as [|bl r IH]; intros HL; [unfold zlen; cbn; lia|]. inversion HL as [|? ? Hbl HL']; subst. cbn [concat]. rewrite zlen_app, zlen_cons.
    rewrite IH by exact HL'. lia.
  Qed.
  Lemma image_of_len : zlen (image_of bs bls n) = 65536 + bs + bs * zlen bls + n.
  Proof. unfold image_of. rewrite !zlen_app, !zlen_repeat, concat_len. lia. Qed.
  Lemma image_of_blocks : image_blocks (image_of bs bls n) bs = zlen bls + n / bs.
  Proof.
    unfold image_blocks. rewrite image_of_len. replace (65536 + bs + bs * zlen bls + n - 65536 - bs) with (zlen bls * bs + n) by lia.
    apply Z.div_add_l. lia.
  Qed.
  Lemma concat_nth : forall (l : list (list byte)) k bl tl, Forall (fun bl => zlen bl = bs) l -> nth_error l k = Some bl ->
    firstn (Z.to_nat bs) (skipn (Z.to_nat (bs * Z.of_nat k)) (concat l ++ tl)) = bl.
  Proof.
    clear. induction l as [|x l IH]; intros k bl tl HF Hk; [destruct k; discriminate|]. inversion HF as [|? ? Hx HF']; subst.
    destruct k as [|k]; cbn [nth_error concat] in *.
    - injection Hk as ->. rewrite Z.mul_0_r. cbn [Z.to_nat skipn]. rewrite <- app_assoc, firstn_app. unfold zlen.
      rewrite Nat2Z.id, Nat.sub_diag, firstn_all. cbn [firstn]. apply app_nil_r.
    - rewrite <- app_assoc, skipn_app. rewrite (skipn_all2 x) by (unfold zlen in *; nia). cbn [app].
      replace (Z.to_nat (zlen x * Z.of_nat (S k)) - length x)%nat with (Z.to_nat (zlen x * Z.of_nat k)) by (unfold zlen in *; nia).
      apply IH; assumption.
  Qed.
  Lemma image_of_block k bl : nth_error bls k = Some bl -> image_block (image_of bs bls n) bs k = bl.
  Proof.
    intros Hk. unfold image_block, sub, image_of. rewrite skipn_app. rewrite (skipn_all2 (repeat x00 _)) by (rewrite repeat_length; nia). cbn [app].
    rewrite repeat_length. replace (Z.to_nat (65536 + bs * (Z.of_nat k + 1)) - Z.to_nat (65536 + bs))%nat with (Z.to_nat (bs * Z.of_nat k)) by nia.
    apply concat_nth; assumption.
  Qed.
  Lemma image_of_rest k : (length bls <= k)%nat -> zeros (image_block (image_of bs bls n) bs k).
  Proof.
    intros Hk. unfold image_block, image_of. unfold zeros, sub. apply Forall_forall. intros x Hx. apply In_firstn' in Hx.
    pose proof concat_len as HC. unfold zlen in HC.
    rewrite skipn_app in Hx. rewrite (skipn_all2 (repeat x00 _)) in Hx by (rewrite repeat_length; nia). cbn [app] in Hx.
    rewrite skipn_app in Hx. rewrite (skipn_all2 (concat bls)) in Hx.
    2:{ rewrite repeat_length. replace (Z.to_nat (65536 + bs * (Z.of_nat k + 1)) - Z.to_nat (65536 + bs))%nat with (Z.to_nat (bs * Z.of_nat k)) by nia. nia. }
    cbn [app] in Hx. apply In_skipn' in Hx. exact (repeat_spec _ _ _ Hx).
  Qed.
  Lemma image_of_tail id m : forall k, (length bls <= k)%nat -> Z.of_nat (k + m) = image_blocks (image_of bs bls n) bs ->
    scanned id (image_of bs bls n) bs k [] true.
  Proof.
    induction m as [|m IH]; intros k Hk HE.
    - constructor. lia.
    - apply sc_foreign; [lia|apply zeros_foreign, image_of_rest; exact Hk|apply IH; lia].
  Qed.
  Lemma image_of_end id : scanned id (image_of bs bls n) bs (length bls) [] true.
  Proof.
    pose proof image_of_blocks as HB. assert (0 <= n / bs) by (apply Z.div_pos; lia).
    apply (image_of_tail id (Z.to_nat (n / bs))); [lia|]. rewrite HB. unfold zlen. lia.
  Qed.
End Image.

Definition id0 : list byte := repeat x0a 16.
Definition good_leaf : list byte := leaf_block ex_leaf_h 4096 ex_leaf_es (repeat x00 (4096 - 101 - 50 - 172)).
(** the same leaf with a damaged item header: the first data offset is 8192 *)
Definition bad_leaf : list byte := firstn (101 + 17) good_leaf ++ [x00; x20; x00; x00] ++ skipn (101 + 21) good_leaf.
(** enough zero bytes at the end to pass the size check *)
Definition enough (N : Z) : Prop := 64 * 1024 * 1024 + 4096 * 100 <= N < 2^62.
Lemma enough_ex : exists N, enough N. Proof. exists (64 * 1024 * 1024 + 4096 * 100). unfold enough. lia. Qed.
Lemma good_len : zlen good_leaf = 4096. Proof. vm_compute. reflexivity. Qed.
Lemma bad_len : zlen bad_leaf = 4096. Proof. vm_compute. reflexivity. Qed.
Lemma image_of_big N0 bls : enough N0 -> Forall (fun bl => zlen bl = 4096) bls -> zlen bls < 2^32 -> big_enough (image_of 4096 bls N0) 4096.
Proof.
  intros HN HL Hn. pose proof (image_of_len 4096 N0 bls ltac:(lia) ltac:(unfold enough in *; lia) HL) as E. pose proof (zlen_nonneg bls).
  unfold big_enough. rewrite E. unfold enough in *. lia.
Qed.
Lemma open_none bs id : length id = 16%nat -> exists ix, openIndex true (mkOptions false bs id (2^64 - 1) false) None = Ok (Some [(metadataKey, newIndexMetadata (mkOptions false bs id (2^64 - 1) false))], Some ix).
Proof.
  intros H. pose proof (C25_open_new (mkOptions false bs id (2^64 - 1) false) H) as HO. cbn [o_ReadOnly o_Generation] in HO.
  destruct HO as (b & ix & HO & -> & _); [unfold is_u64; lia|]. eauto.
Qed.

Lemma concat_nils {A} n : concat (repeat (@nil A) n) = [].
Proof. induction n as [|n IH]; [reflexivity|]. exact IH. Qed.
Lemma good_notforeign : ~ foreign id0 good_leaf.
Proof. intros [F|[F|F]]; [apply F|..]; vm_compute in F; try discriminate; try (apply F); vm_compute; reflexivity. Qed.
Lemma bad_notforeign : ~ foreign id0 bad_leaf.
Proof. intros [F|[F|F]]; [apply F|..]; vm_compute in F; try discriminate; try (apply F); vm_compute; reflexivity. Qed.
Lemma good_num : num 96 4 good_leaf = 2. Proof. vm_compute. reflexivity. Qed.
Lemma bad_num : num 96 4 bad_leaf = 2. Proof. vm_compute. reflexivity. Qed.
Lemma bad_unreadable : ~ item_readable bad_leaf 0.
Proof. intros (_ & F & _). vm_compute in F. apply F. reflexivity. Qed.
Lemma good_readable : readable_leaf good_leaf.
Proof.
  intros i Hi. rewrite good_num in Hi. assert (i = 0 \/ i = 1) as [->| ->] by lia; (split; [|split]; vm_compute; discriminate).
Qed.
Lemma good_in : In (raw_item good_leaf 0) (raw_items good_leaf).
Proof. unfold raw_items. rewrite good_num. left. reflexivity. Qed.
Lemma good_other_key m v : ~ stored [(metadataKey, m)] (i_owner (raw_item good_leaf 0)) (i_key (raw_item good_leaf 0)) (i_gen (raw_item good_leaf 0)) v.
Proof. intros [F|[]]. apply (f_equal fst) in F. vm_compute in F. discriminate. Qed.
Lemma id0_nonzero : id0 <> repeat x00 16. Proof. discriminate. Qed.
Lemma good_contributes : contributes id0 4096 good_leaf (leaf_items ex_leaf_h (4096 - 101) ex_leaf_es).
Proof. apply c_leaf; [exact C13_ex|reflexivity|reflexivity|discriminate|reflexivity]. Qed.
Lemma id0_len : length id0 = 16%nat. Proof. reflexivity. Qed.
Lemma leaf_items_2 : zlen (leaf_items ex_leaf_h (4096 - 101) ex_leaf_es) = 2. Proof. reflexivity. Qed.
#[local] Opaque good_leaf bad_leaf id0 leaf_items ex_leaf_h ex_leaf_es.
(** a good image: one leaf, then zeros: both items end up in the index *)
Lemma good_image id leaf is N : enough N -> zlen leaf = 4096 -> contributes id 4096 leaf is ->
  big_enough (image_of 4096 [leaf] N) 4096 /\ image_items id (image_of 4096 [leaf] N) 4096 is.
Proof.
  intros HN HL1 HC. assert (HL : Forall (fun bl => zlen bl = 4096) [leaf]) by (constructor; [exact HL1|constructor]).
  split; [apply image_of_big; [exact HN|exact HL|unfold zlen; cbn; lia]|].
  pose proof (image_of_blocks 4096 N [leaf] ltac:(lia) ltac:(unfold enough in *; lia) HL) as HB.
  assert (HP : 0 <= N / 4096) by (apply Z.div_pos; unfold enough in *; lia).
  exists (is :: repeat [] (Z.to_nat (N / 4096))). split; [|split].
  - cbn [concat]. rewrite concat_nils. symmetry. apply app_nil_r.
  - rewrite HB, !zlen_cons, zlen_repeat, zlen_nil. rewrite Z2Nat.id by exact HP. lia.
  - intros [|k] i Hk; cbn [nth_error] in Hk.
    + injection Hk as <-. rewrite (image_of_block 4096 N [leaf] ltac:(lia) HL 0 leaf eq_refl). exact HC.
    + apply nth_error_In in Hk. apply repeat_spec in Hk. subst i. apply c_foreign, zeros_foreign, image_of_rest; [lia|exact HL|cbn [length]; apply le_n_S, Nat.le_0_l].
Qed.
Example C37_ex : forall N, enough N -> big_enough (image_of 4096 [good_leaf] N) 4096 /\
  image_items id0 (image_of 4096 [good_leaf] N) 4096 (leaf_items ex_leaf_h (4096 - 101) ex_leaf_es) /\
  zlen (leaf_items ex_leaf_h (4096 - 101) ex_leaf_es) = 2.
Proof.
  intros N HN. destruct (good_image id0 good_leaf _ N HN good_len good_contributes) as [H1 H2]. split; [exact H1|]. split; [exact H2|exact leaf_items_2].
Qed.

(** Two blocks: a damaged leaf (one item header has a data offset outside the
    block), followed by an intact leaf.  The scan panics at the first; the index
    stays empty although the second block has two intact items. *)
Lemma bad_then id bad good N : enough N -> length id = 16%nat -> id <> repeat x00 16 -> zlen bad = 4096 -> zlen good = 4096 ->
  ~ foreign id bad -> 0 < num 96 4 bad -> ~ item_readable bad 0 ->
  let content := image_of 4096 [bad; good] N in
  big_enough content 4096 /\ 2 <= image_blocks content 4096 /\ image_block content 4096 1 = good /\
  doScanFS true true no_faults (file_dev content) 4096 id None = (Some [(metadataKey, newIndexMetadata (mkOptions false 4096 id (2^64 - 1) false))], XPanic).
Proof.
  intros HN Hlen Hid L0 L1 HF Hnum HU content. unfold content. clear content.
  assert (HL : Forall (fun bl => zlen bl = 4096) [bad; good]) by (constructor; [exact L0|constructor; [exact L1|constructor]]).
  pose proof (image_of_blocks 4096 N [bad; good] ltac:(lia) ltac:(unfold enough in *; lia) HL) as HB. assert (HZ : zlen [bad; good] = 2) by reflexivity. rewrite HZ in HB. clear HZ.
  assert (HP : 0 <= N / 4096) by (apply Z.div_pos; unfold enough in *; lia).
  pose proof (image_of_big N [bad; good] HN HL ltac:(unfold zlen; cbn; lia)) as HG.
  pose proof (image_of_block 4096 N [bad; good] ltac:(lia) HL 1 good eq_refl) as B1.
  pose proof (image_of_block 4096 N [bad; good] ltac:(lia) HL 0 bad eq_refl) as B0.
  set (content := image_of 4096 [bad; good] N) in *. clearbody content.
  split; [exact HG|]. split; [lia|]. split; [exact B1|].
  destruct (open_none 4096 id Hlen) as (ix & HO).
  destruct (recon_run id content 4096 None _ ix HG Hid HO) as (b0 & E0 & HR). injection E0 as <-.
  assert (HS : scanned id content 4096 0 [] false).
  { apply (sc_bad id content 4096 0 0); [lia|rewrite B0; exact HF|rewrite B0; lia|rewrite B0; exact HU|intros j Hj; lia]. }
  destruct (image_scanned id _ 4096 HG ltac:(lia)) as (is & c & HS' & HT).
  destruct (scanned_fun _ _ _ _ _ _ _ _ HS HS') as [<- <-]. rewrite HT in HR. exact HR.
Qed.
Theorem C37_refuted : exists id content bs k i b' v,
  big_enough content bs /\ length id = 16%nat /\ Z.of_nat k < image_blocks content bs /\
  ~ foreign id (image_block content bs k) /\ readable_leaf (image_block content bs k) /\ In i (raw_items (image_block content bs k)) /\
  v = i_item i ++ i_data i /\
  doScanFS true true no_faults (file_dev content) bs id None = (Some b', XPanic) /\
  zlen b' = 1 /\ ~ stored b' (i_owner i) (i_key i) (i_gen i) v.
Proof.
  destruct enough_ex as (N & HN).
  destruct (bad_then id0 bad_leaf good_leaf N HN id0_len id0_nonzero bad_len good_len bad_notforeign ltac:(rewrite bad_num; lia) bad_unreadable) as (HG & HI & B1 & HR).
  set (content := image_of 4096 [bad_leaf; good_leaf] N) in *. clearbody content.
  exists id0, content, 4096, 1%nat, (raw_item good_leaf 0). eexists. eexists.
  split; [exact HG|]. split; [exact id0_len|]. split; [lia|]. rewrite !B1.
  split; [exact good_notforeign|]. split; [exact good_readable|]. split; [exact good_in|].
  split; [reflexivity|]. split; [exact HR|]. split; [reflexivity|]. apply good_other_key.
Qed.
(** C39: the same image refutes "runs to the end" *)
Theorem C39_refuted : exists id content bs, big_enough content bs /\ 101 <= bs < 2^32 /\ id <> repeat x00 16 /\
  snd (doScanFS true true no_faults (file_dev content) bs id None) = XPanic.
Proof.
  destruct enough_ex as (N & HN).
  destruct (bad_then id0 bad_leaf good_leaf N HN id0_len id0_nonzero bad_len good_len bad_notforeign ltac:(rewrite bad_num; lia) bad_unreadable) as (HG & HI & B1 & HR).
  exists id0. eexists. exists 4096. split; [exact HG|]. split; [lia|]. split; [exact id0_nonzero|]. rewrite HR. reflexivity.
Qed.
(** Block sizes too small for a header (the command line accepts any): every scan
    of every image aborts. *)
Theorem C39_small_blocks_refuted : forall id content bs d b0 ix0, big_enough content bs -> bs < 48 -> id <> repeat x00 16 ->
  openIndex true (mkOptions false bs id (2^64 - 1) false) d = Ok (Some b0, Some ix0) ->
  doScanFS true true no_faults (file_dev content) bs id d = (Some b0, XPanic).
Proof.
  intros id content bs d b0 ix0 HB Hs Hid HO. destruct (recon_run id content bs d _ ix0 HB Hid HO) as (b & E & HR). injection E as <-.
  assert (HN : 0 < image_blocks content bs) by (destruct HB as (H0 & H1 & _); unfold image_blocks; apply Z.div_str_pos; lia).
  assert (HT : image_trace id content bs = ([], XPanic)).
  { unfold image_trace. destruct (Z.to_nat (image_blocks content bs)) as [|n] eqn:En; [lia|]. cbn [blocks_trace].
    assert (BT : block_trace id (image_block content bs 0) = ([], XPanic)).
    { unfold block_trace, wanted, Header_FSID. change headerFSID with 32. rewrite atUUID_exact by apply sl_wf.
      pose proof (image_block_len content bs 0 HB HN) as HL.
      assert (R : readable 32 16 (sl (image_block content bs 0)) = false).
      { destruct (readable 32 16 _) eqn:R; [|reflexivity]. apply readable_iff in R. rewrite scap_sl, HL in R. lia. }
      rewrite R. reflexivity. }
    rewrite BT. reflexivity. }
  rewrite HT in HR. exact HR.
Qed.
(** The second copy of the superblock (at 64 MiB) has the filesystem id at the
    same place as a block header; where a header has the item count and the
    level, it has the address of the log tree (8 bytes at offset 96).  So on any
    image, damaged or not, of a filesystem with a log tree below 4 GiB, a scan
    with 4096 byte blocks takes that copy for a leaf with thousands of items and
    panics; nothing beyond 64 MiB is indexed. *)
Lemma log_tree_block id content P k : 0 <= P -> P + 4096 <= zlen content -> P = 65536 + 4096 * (Z.of_nat k + 1) ->
  sub (P + 32) 16 content = id -> 160 <= le_decode (sub (P + 96) 8 content) < 2^32 ->
  ~ good_block id (image_block content 4096 k).
Proof.
  intros HP HL Ek Hf Hlog E.
  assert (SS : forall o n, 0 <= o -> 0 <= n -> o + n <= 4096 -> sub o n (image_block content 4096 k) = sub (P + o) n content).
  { intros o n A B C. unfold image_block, sub. rewrite <- Ek. rewrite skipn_firstn_comm, firstn_firstn, skipn_skipn'.
    f_equal; [lia|]. f_equal. lia. }
  assert (HN : num 96 4 (image_block content 4096 k) + 2^32 * num 100 4 (image_block content 4096 k) = le_decode (sub (P + 96) 8 content)).
  { unfold num. rewrite !SS by lia. unfold sub. replace (P + 100) with (P + 96 + 4) by lia.
    set (p := P + 96). assert (Hp : 0 <= p /\ p + 8 <= zlen content) by (unfold p; lia). clearbody p.
    rewrite (Z2Nat.inj_add p 4) by lia. rewrite <- skipn_skipn'. set (l := skipn (Z.to_nat p) content).
    assert (Hl : (8 <= length l)%nat) by (unfold l; rewrite skipn_length; unfold zlen in Hp; lia). clearbody l. clear -Hl.
    change (Z.to_nat 4) with 4%nat. change (Z.to_nat 8) with 8%nat. do 8 (destruct l as [|? l]; [cbn in Hl; lia|]). cbn [firstn skipn le_decode]. lia. }
  assert (LK : zlen (image_block content 4096 k) = 4096).
  { unfold image_block, sub. rewrite <- Ek, zlen_firstn_le by lia. rewrite zlen_skipn_le by lia. lia. }
  pose proof (num_range 96 4 (image_block content 4096 k) ltac:(lia)). pose proof (num_range 100 4 (image_block content 4096 k) ltac:(lia)).
  assert (N1 : num 100 4 (image_block content 4096 k) = 0) by lia. assert (N2 : 160 <= num 96 4 (image_block content 4096 k)) by lia.
  destruct E as [[F|[F|F]]|F].
  - apply F. rewrite SS by lia. exact Hf.
  - unfold num in N2. lia.
  - apply F. rewrite sub1 by lia. f_equal. unfold num, sub in N1. set (bl := image_block content 4096 k) in *. clearbody bl. clear -N1 LK. unfold zlen in LK.
    change (Z.to_nat 4) with 4%nat in N1. rewrite <- (Nat.add_0_r (Z.to_nat 100)), <- (nth_skipn' bl (Z.to_nat 100) 0). destruct (skipn (Z.to_nat 100) bl) as [|x l] eqn:E; [reflexivity|].
    cbn [nth]. cbn [firstn le_decode] in N1. pose proof (bz_range x). pose proof (le_decode_range (firstn 3 l)). apply bz_inj. change (bz x00) with 0. lia.
  - destruct (F 159 ltac:(lia)) as (F1 & _). rewrite LK in F1. unfold ihead in F1. lia.
Qed.
Theorem C39_log_tree_refuted : forall id content d b0 ix0,
  big_enough content 4096 -> id <> repeat x00 16 ->
  openIndex true (mkOptions false 4096 id (2^64 - 1) false) d = Ok (Some b0, Some ix0) ->
  sub (64 * 1024 * 1024 + 32) 16 content = id ->
  160 <= le_decode (sub (64 * 1024 * 1024 + 96) 8 content) < 2^32 ->
  snd (doScanFS true true no_faults (file_dev content) 4096 id d) = XPanic.
Proof.
  intros id content d b0 ix0 HB Hid HO Hf Hlog.
  destruct (C39_completes_iff_partial id content 4096 d b0 ix0 HB ltac:(lia) Hid HO) as [H1 H2]. cbv zeta in *.
  pose proof HB as (_ & HL & _). remember (64 * 1024 * 1024) as P eqn:EP. assert (EP' : P = 67108864) by lia. clear EP.
  apply H2. intros E. assert (HK : exists K, Z.of_nat K = 16367) by (exists (Z.to_nat 16367); apply Z2Nat.id; lia). destruct HK as (K & EK).
  revert Hf Hlog. intros Hf Hlog. apply (log_tree_block id content P K); try assumption; try lia.
  apply (proj1 H1 E). rewrite EK. unfold image_blocks. apply Z.lt_le_trans with ((67108864 + 4096 * 100 - 65536 - 4096) / 4096); [reflexivity|apply Z.div_le_mono; lia].
Qed.
Print Assumptions C39_small_blocks_refuted. Print Assumptions C37_refuted. Print Assumptions C39_refuted. Print Assumptions C39_log_tree_refuted.

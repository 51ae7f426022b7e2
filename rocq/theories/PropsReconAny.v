(** Property theorems C37-C39 for arbitrary (damaged) images: what a scan of any
    image stores and when it aborts. *)
From Verif Require Import Go GoProofs Layout LayoutProofs SpecLayout LeafProofs StructProofs PropsLayout KeyFmt KeyProofs Bolt Store StoreProofs SpecStore RangeProofs PropsStore Session PropsSession IoUtil Recon PropsRecon.
From Coq Require Import ZifyBool ZifyNat ZifyN.
Ltac Zify.zify_post_hook ::= Z.div_mod_to_equations.

(** ** specification, in terms of the raw bytes of a block *)
Definition num (off n : Z) (bl : list byte) : Z := le_decode (sub off n bl).
(** start of the i-th item header *)
Definition ihead (i : Z) : Z := 101 + 25 * i.
(** where the i-th item claims its data starts and ends (32 bit arithmetic) *)
Definition dstart (bl : list byte) (i : Z) : Z := (101 + num (ihead i + 17) 4 bl) mod 2^32.
Definition dend (bl : list byte) (i : Z) : Z := (dstart bl i + num (ihead i + 21) 4 bl) mod 2^32.
(** the header of item i is inside the block, and its data starts inside the
    block and does not wrap around 32 bits *)
Definition item_readable (bl : list byte) (i : Z) : Prop :=
  ihead i + 25 <= zlen bl /\ dstart bl i <= zlen bl /\ dstart bl i <= dend bl i.
(** a leaf all of whose items are readable *)
Definition readable_leaf (bl : list byte) : Prop := forall i, 0 <= i < num 96 4 bl -> item_readable bl i.
(** item i of a leaf; data running over the end of the block is cut there *)
Definition raw_item (bl : list byte) (i : Z) : insertion :=
  mkIns (mkKey (num (ihead i) 8 bl) (num (ihead i + 8) 1 bl) (num (ihead i + 9) 8 bl)) (num 88 8 bl) (num 80 8 bl)
    (sub (ihead i) 25 bl) (sub (dstart bl i) (Z.min (zlen bl) (dend bl i) - dstart bl i) bl).
Definition raw_items (bl : list byte) : list insertion := map (fun n => raw_item bl (Z.of_nat n)) (seq 0 (Z.to_nat (num 96 4 bl))).

Lemma num_range off n bl : 0 <= n -> 0 <= num off n bl < 256 ^ n.
Proof.
  intros H. unfold num. pose proof (le_decode_range (sub off n bl)) as R.
  assert (zlen (sub off n bl) <= n) by (unfold sub; rewrite zlen_firstn_le by lia; lia).
  pose proof (Z.pow_le_mono_r 256 (zlen (sub off n bl)) n). lia.
Qed.
Lemma at64_num bl o : 0 <= o -> o + 8 <= zlen bl -> at64 o (sl bl) = Ok (num o 8 bl).
Proof.
  intros H0 H1. rewrite at64_exact by apply sl_wf.
  rewrite (proj2 (readable_iff o 8 (sl bl))) by (rewrite scap_sl; cbn [sl s_len]; lia). reflexivity.
Qed.
Lemma at32_num bl o : 0 <= o -> o + 4 <= zlen bl -> at32 o (sl bl) = Ok (num o 4 bl).
Proof.
  intros H0 H1. rewrite at32_exact by apply sl_wf.
  rewrite (proj2 (readable_iff o 4 (sl bl))) by (rewrite scap_sl; cbn [sl s_len]; lia). reflexivity.
Qed.
Lemma sub1 bl o : 0 <= o < zlen bl -> sub o 1 bl = [nth (Z.to_nat o) bl x00].
Proof.
  intros H. unfold sub. change (Z.to_nat 1) with 1%nat. unfold zlen in H.
  destruct (skipn (Z.to_nat o) bl) as [|x r] eqn:E.
  - apply (f_equal (@length byte)) in E. rewrite skipn_length in E. cbn in E. lia.
  - cbn [firstn]. f_equal. rewrite <- (firstn_skipn (Z.to_nat o) bl), E, app_nth2; rewrite firstn_length; [|lia].
    replace (Z.to_nat o - Nat.min (Z.to_nat o) (length bl))%nat with 0%nat by lia. reflexivity.
Qed.
Lemma at8_num bl o : 0 <= o < zlen bl -> at8 o (sl bl) = Ok (num o 1 bl).
Proof.
  intros H. rewrite at8_exact. cbn [sl s_len s_arr]. replace ((0 <=? o) && (o <? zlen bl)) with true by lia.
  unfold num. rewrite sub1 by lia. cbn [le_decode]. f_equal. lia.
Qed.
Lemma insertion_exact bl i : 101 <= zlen bl < 2^32 -> 0 <= i ->
  (item_readable bl i -> leaf_insertion (sl bl) i = Ok (raw_item bl i)) /\ (~ item_readable bl i -> leaf_insertion (sl bl) i = Panic).
Proof.
  intros Hb Hi. unfold leaf_insertion, Leaf_Key, Leaf_Data, item_readable.
  change HeaderLen with 101. change ItemLen with 25. change itemKey with 0.
  replace (101 + i * 25 + 0) with (ihead i) by (unfold ihead; lia).
  destruct (Z_le_dec (ihead i + 25) (zlen bl)) as [Hh|Hh].
  - assert (Hp : 101 <= ihead i) by (unfold ihead; lia).
    rewrite (Leaf_Item_ok (sl bl) i (sl_wf bl) Hi) by (rewrite scap_sl; unfold ihead in Hh; lia). cbn [rbind].
    unfold Item_Offset, Item_Size. change itemOffset with 17. change itemSize with 21.
    rewrite !at32_in_item by (try apply sl_wf; cbn [sl s_len]; unfold ihead in *; lia). fold (ihead i).
    rewrite atKey_parts by (try apply sl_wf; cbn [sl s_len]; lia).
    rewrite !at64_num, at8_num, !at32_num by lia. cbn [rbind].
    change (u32 (101 + num (ihead i + 17) 4 bl)) with (dstart bl i). change (u32 (dstart bl i + num (ihead i + 21) 4 bl)) with (dend bl i).
    cbn [sl s_len]. rewrite u32_small by (unfold is_u32; lia).
    assert (R0 : 0 <= dstart bl i) by (unfold dstart; apply Z.mod_pos_bound; lia).
    replace (if zlen bl <? dend bl i then zlen bl else dend bl i) with (Z.min (zlen bl) (dend bl i)) by (destruct (zlen bl <? dend bl i) eqn:E; lia).
    split.
    + intros (_ & H1 & H2). change (mkSlice bl (zlen bl)) with (sl bl). rewrite go_slice_ok by (rewrite ?scap_sl; lia). cbn [rbind].
      unfold Header_Owner, Header_Generation. change headerOwner with 88. change headerGeneration with 80. rewrite !at64_num by lia. cbn [rbind].
      reflexivity.
    + intros HN. change (mkSlice bl (zlen bl)) with (sl bl). rewrite go_slice_panic by (rewrite scap_sl; lia). reflexivity.
  - split; [lia|]. intros _. destruct (atKey (ihead i) (sl bl)) as [k| |] eqn:EK; cbn [rbind]; try reflexivity.
    + rewrite Leaf_Item_panic by (rewrite ?scap_sl; unfold ihead in *; lia). reflexivity.
    + exfalso. clear -EK. unfold atKey, SliceKey, SliceUint64LE, go_from, go_to, go_index in EK.
      repeat match type of EK with
      | context [go_slice ?a ?b ?c] => let E := fresh in destruct (go_slice a b c) eqn:E; cbn [rbind] in EK; [|discriminate|exact (go_slice_no_timeout _ _ _ E)]
      | context [if ?c then _ else _] => destruct c; cbn [rbind] in EK; [|discriminate]
      end. discriminate.
Qed.
(** the items of a block up to the first unreadable one *)
Lemma items_exact bl : 101 <= zlen bl < 2^32 -> forall n i, 0 <= i ->
  exists m, (m <= n)%nat /\ fst (items_trace (sl bl) n i) = map (fun j => raw_item bl (i + Z.of_nat j)) (seq 0 m) /\
    (forall j, (j < m)%nat -> item_readable bl (i + Z.of_nat j)) /\
    ((m = n /\ snd (items_trace (sl bl) n i) = XOk) \/ ((m < n)%nat /\ ~ item_readable bl (i + Z.of_nat m) /\ snd (items_trace (sl bl) n i) = XPanic)).
Proof.
  intros Hb. induction n as [|n IH]; intros i Hi; cbn [items_trace].
  - exists 0%nat. repeat split; auto; lia.
  - assert (D : item_readable bl i \/ ~ item_readable bl i) by (unfold item_readable; lia).
    destruct (insertion_exact bl i Hb Hi) as [E1 E2]. destruct D as [D|D].
    + rewrite (E1 D). destruct (IH (i + 1) ltac:(lia)) as (m & Hm & HF & HR & HS). exists (S m). destruct (items_trace (sl bl) n (i + 1)) as [is st]. cbn [fst snd] in *.
      split; [lia|]. split; [|split].
      * cbn [seq map]. rewrite Z.add_0_r. f_equal. rewrite HF, <- seq_shift, map_map. apply map_ext. intros j. f_equal. lia.
      * intros [|j] Hj; [rewrite Z.add_0_r; exact D|]. replace (i + Z.of_nat (S j)) with (i + 1 + Z.of_nat j) by lia. apply HR. lia.
      * destruct HS as [[-> ->]|(H1 & H2 & ->)]; [left; auto|right]. replace (i + Z.of_nat (S m)) with (i + 1 + Z.of_nat m) by lia. repeat split; [lia|exact H2].
    + rewrite (E2 D). exists 0%nat. cbn [fst snd seq map]. rewrite Z.add_0_r. split; [lia|]. split; [reflexivity|]. split; [lia|]. right. split; [lia|auto].
Qed.
Lemma unreadable_far bl : 101 <= zlen bl < 2^32 -> ~ item_readable bl (zlen bl / 25).
Proof. intros H (H1 & _). unfold ihead in H1. lia. Qed.
(** one block *)
Lemma foreign_dec id bl : foreign id bl \/ ~ foreign id bl.
Proof.
  unfold foreign. destruct (bytes_eqb (sub 32 16 bl) id) eqn:E1.
  - apply bytes_eqb_eq in E1. destruct (Z.eq_dec (le_decode (sub 96 4 bl)) 0) as [E2|E2]; [left; auto|].
    destruct (bytes_eqb (sub 100 1 bl) [x00]) eqn:E3; [apply bytes_eqb_eq in E3; right; intuition congruence|].
    apply bytes_eqb_neq in E3. left; auto.
  - apply bytes_eqb_neq in E1. left; auto.
Qed.
Lemma foreign_trace id bl : 101 <= zlen bl -> foreign id bl -> block_trace id bl = ([], XOk).
Proof. intros Hb HF. apply (contributes_trace id (zlen bl) bl []); [lia|reflexivity|]. constructor. exact HF. Qed.
Lemma leaf_trace_any id bl : 101 <= zlen bl < 2^32 -> ~ foreign id bl ->
  (readable_leaf bl -> block_trace id bl = (raw_items bl, XOk)) /\
  (~ readable_leaf bl -> exists m, (Z.of_nat m < num 96 4 bl) /\ ~ item_readable bl (Z.of_nat m) /\ (forall j, (j < m)%nat -> item_readable bl (Z.of_nat j)) /\
      block_trace id bl = (map (fun j => raw_item bl (Z.of_nat j)) (seq 0 m), XPanic)).
Proof.
  intros Hb HN. unfold block_trace. rewrite wanted_exact by lia.
  replace (bytes_eqb (sub 32 16 bl) id && negb (le_decode (sub 96 4 bl) =? 0) && (bz (nth 100 bl x00) =? 0)) with true.
  2:{ symmetry. unfold foreign in HN. rewrite !andb_true_iff, negb_true_iff, Z.eqb_neq, Z.eqb_eq, bytes_eqb_eq. repeat split.
      - destruct (bytes_eqb (sub 32 16 bl) id) eqn:E; [apply bytes_eqb_eq; exact E|]. apply bytes_eqb_neq in E. tauto.
      - intros E. tauto.
      - destruct (bytes_eqb (sub 100 1 bl) [x00]) eqn:E; [apply bytes_eqb_eq in E|apply bytes_eqb_neq in E; tauto].
        rewrite sub1_nth in E by lia. injection E as ->. reflexivity. }
  cbn [rbind].
  assert (HC : Header_NrItems (sl bl) = Ok (num 96 4 bl)) by (unfold Header_NrItems; change headerNrItems with 96; apply at32_num; lia).
  rewrite (Leaf_Len_ok (sl bl) _ HC) by (rewrite scap_sl; lia). cbn [rbind]. rewrite scap_sl.
  pose proof (num_range 96 4 bl ltac:(lia)) as HR.
  destruct (items_exact bl Hb (Z.to_nat (Z.min (num 96 4 bl) (zlen bl / 25))) 0 ltac:(lia)) as (m & Hm & HF & HA & HS).
  pose proof (unreadable_far bl Hb) as HU.
  assert (HM : Z.of_nat m <= zlen bl / 25) by (assert (0 <= zlen bl / 25) by (apply Z.div_pos; lia); lia).
  split.
  - intros RL. destruct HS as [[Em ES]|(H1 & H2 & _)].
    + assert (num 96 4 bl <= zlen bl / 25).
      { destruct (Z_le_dec (num 96 4 bl) (zlen bl / 25)) as [|H]; [assumption|]. exfalso. apply HU. apply RL. split; [apply Z.div_pos; lia|lia]. }
      assert (m = Z.to_nat (num 96 4 bl)) by lia.
      destruct (items_trace _ _ _) as [is st]. cbn [fst snd] in *. rewrite HF, ES. unfold raw_items. do 2 f_equal. congruence.
    + exfalso. apply H2. apply RL. lia.
  - intros NR.
    assert (HX : (m < Z.to_nat (num 96 4 bl))%nat /\ ~ item_readable bl (Z.of_nat m) /\ snd (items_trace (sl bl) (Z.to_nat (Z.min (num 96 4 bl) (zlen bl / 25))) 0) = XPanic).
    { destruct HS as [[Em ES]|(H1 & H2 & H3)]; [|split; [lia|split; [rewrite Z.add_0_l in H2; exact H2|exact H3]]]. exfalso.
      assert (HX : Z.of_nat m = Z.min (num 96 4 bl) (zlen bl / 25)) by (assert (0 <= zlen bl / 25) by (apply Z.div_pos; lia); lia).
      destruct (Z_le_dec (num 96 4 bl) (zlen bl / 25)) as [Hle|Hgt].
      - apply NR. intros i Hi. specialize (HA (Z.to_nat i) ltac:(lia)). rewrite Z.add_0_l, Z2Nat.id in HA by lia. exact HA.
      - assert (HZ : 0 < zlen bl / 25) by lia. specialize (HA (m - 1)%nat ltac:(lia)). rewrite Z.add_0_l in HA. replace (Z.of_nat (m - 1)) with (zlen bl / 25 - 1) in HA by lia.
        destruct HA as (HA & _). unfold ihead in HA. lia. }
    destruct HX as (X1 & X2 & X3). exists m. split; [lia|]. split; [exact X2|]. split.
    + intros j Hj. specialize (HA j Hj). rewrite Z.add_0_l in HA. exact HA.
    + destruct (items_trace _ _ _) as [is st]. cbn [fst snd] in *. subst. reflexivity.
Qed.

Lemma bounded_dec (P : Z -> Prop) : (forall i, P i \/ ~ P i) -> forall n, (forall i, 0 <= i < Z.of_nat n -> P i) \/ ~ (forall i, 0 <= i < Z.of_nat n -> P i).
Proof.
  intros HD. induction n as [|n IH]; [left; lia|]. destruct IH as [IH|IH].
  - destruct (HD (Z.of_nat n)) as [H|H].
    + left. intros i Hi. destruct (Z.eq_dec i (Z.of_nat n)) as [->|]; [exact H|apply IH; lia].
    + right. intros HA. apply H. apply HA. lia.
  - right. intros HA. apply IH. intros i Hi. apply HA. lia.
Qed.
Lemma readable_dec bl : readable_leaf bl \/ ~ readable_leaf bl.
Proof.
  pose proof (num_range 96 4 bl ltac:(lia)) as R.
  destruct (bounded_dec (item_readable bl) ltac:(intros i; unfold item_readable; lia) (Z.to_nat (num 96 4 bl))) as [H|H].
  - left. intros i Hi. apply H. lia.
  - right. intros HA. apply H. intros i Hi. apply HA. lia.
Qed.

(** ** what a scan stores, for any image: blocks are taken in order; foreign
    blocks contribute nothing, leaves all their items; at the first unreadable
    item the scan stops ([false]: not completed) *)
Inductive scanned (id content : list byte) (bs : Z) : nat -> list insertion -> bool -> Prop :=
| sc_end k : Z.of_nat k = image_blocks content bs -> scanned id content bs k [] true
| sc_foreign k is c : Z.of_nat k < image_blocks content bs -> foreign id (image_block content bs k) ->
    scanned id content bs (S k) is c -> scanned id content bs k is c
| sc_leaf k is c : Z.of_nat k < image_blocks content bs -> ~ foreign id (image_block content bs k) -> readable_leaf (image_block content bs k) ->
    scanned id content bs (S k) is c -> scanned id content bs k (raw_items (image_block content bs k) ++ is) c
| sc_bad k m : Z.of_nat k < image_blocks content bs -> ~ foreign id (image_block content bs k) ->
    Z.of_nat m < num 96 4 (image_block content bs k) -> ~ item_readable (image_block content bs k) (Z.of_nat m) ->
    (forall j, (j < m)%nat -> item_readable (image_block content bs k) (Z.of_nat j)) ->
    scanned id content bs k (map (fun j => raw_item (image_block content bs k) (Z.of_nat j)) (seq 0 m)) false.
Definition good_block (id bl : list byte) : Prop := foreign id bl \/ readable_leaf bl.

Lemma image_block_len content bs k : big_enough content bs -> Z.of_nat k < image_blocks content bs -> zlen (image_block content bs k) = bs.
Proof.
  intros (H0 & H1 & H2) Hk. unfold image_block, sub. rewrite zlen_firstn_le by lia.
  assert (65536 + bs * (Z.of_nat k + 1) + bs <= zlen content).
  { unfold image_blocks in Hk. pose proof (Z.mul_div_le (zlen content - 65536 - bs) bs H0). nia. }
  rewrite zlen_skipn_le by nia. lia.
Qed.
Lemma trace_scanned id content bs : big_enough content bs -> 101 <= bs < 2^32 -> forall n k, Z.of_nat (k + n) = image_blocks content bs ->
  exists is c, scanned id content bs k is c /\ blocks_trace id content bs n k = (is, if c then XOk else XPanic).
Proof.
  intros HB Hb. induction n as [|n IH]; intros k Hk; cbn [blocks_trace].
  - exists [], true. split; [constructor; lia|reflexivity].
  - pose proof (image_block_len content bs k HB ltac:(lia)) as HL. set (bl := image_block content bs k) in *.
    destruct (IH (S k) ltac:(lia)) as (is & c & HS & HT).
    destruct (foreign_dec id bl) as [F|F].
    + rewrite foreign_trace by (try exact F; lia). rewrite HT. exists is, c. split; [|reflexivity]. apply sc_foreign; [lia|exact F|exact HS].
    + destruct (leaf_trace_any id bl ltac:(lia) F) as [L1 L2]. destruct (readable_dec bl) as [R|R].
      * rewrite (L1 R), HT. exists (raw_items bl ++ is), c. split; [|reflexivity]. apply sc_leaf; [lia|exact F|exact R|exact HS].
      * destruct (L2 R) as (m & H1 & H2 & H3 & ->). eexists _, false. split; [|reflexivity]. apply sc_bad; [lia|exact F|exact H1|exact H2|exact H3].
Qed.
Lemma scanned_fun id content bs : forall k is c is' c', scanned id content bs k is c -> scanned id content bs k is' c' -> is = is' /\ c = c'.
Proof.
  intros k is c is' c' H. revert is' c'. induction H as [k Hk|k is c Hk HF HS IH|k is c Hk HF HR HS IH|k m Hk HF Hm HU HR]; intros is' c' H'; inversion H'; subst; try lia; try contradiction.
  - auto.
  - auto.
  - match goal with HX : scanned _ _ _ (S k) _ _ |- _ => destruct (IH _ _ HX) as [-> ->] end. auto.
  - exfalso. match goal with HX : ~ item_readable _ (Z.of_nat ?m) |- _ => apply HX, HR; lia end.
  - exfalso. match goal with HX : readable_leaf _ |- _ => apply HU, HX; lia end.
  - match goal with |- map _ (seq 0 m) = map _ (seq 0 ?m') /\ _ => assert (m = m') as ->; [|auto]; destruct (Nat.lt_trichotomy m m') as [L|[L|L]]; [exfalso; apply HU; auto|exact L|exfalso] end.
    match goal with HX : ~ item_readable _ (Z.of_nat ?m'), L : (?m' < m)%nat |- _ => apply HX, HR, L end.
Qed.
Lemma scanned_complete id content bs : forall k is c, scanned id content bs k is c ->
  (c = true <-> forall j, (k <= j)%nat -> Z.of_nat j < image_blocks content bs -> good_block id (image_block content bs j)).
Proof.
  intros k is c H. induction H as [k Hk|k is c Hk HF HS IH|k is c Hk HF HR HS IH|k m Hk HF Hm HU HR].
  - split; [intros _ j Hj Hj2; lia|reflexivity].
  - rewrite IH. split; intros HA j Hj Hj2; [|apply HA; lia].
    destruct (Nat.eq_dec j k) as [->|]; [left; exact HF|apply HA; lia].
  - rewrite IH. split; intros HA j Hj Hj2; [|apply HA; lia].
    destruct (Nat.eq_dec j k) as [->|]; [right; exact HR|apply HA; lia].
  - split; [discriminate|]. intros HA. exfalso. destruct (HA k (le_n k) Hk) as [HG|HG]; [contradiction|]. apply HU, HG. lia.
Qed.
Lemma image_scanned id content bs : big_enough content bs -> 101 <= bs < 2^32 ->
  exists is c, scanned id content bs 0 is c /\ image_trace id content bs = (is, if c then XOk else XPanic).
Proof. intros HB Hb. apply trace_scanned; try assumption. pose proof (image_blocks_nonneg content bs HB). lia. Qed.

(** the one tuple that is not an item: the key of the metadata record *)
Definition reserved (i : insertion) : Prop := i_owner i = 2^64 - 1 /\ i_key i = mkKey (2^64 - 256) 255 (2^64 - 1) /\ i_gen i = 2^64 - 1.
Lemma metadata_tuple : metadataKey = newIndexKey (2^64 - 1) (mkKey (2^64 - 256) 255 (2^64 - 1)) (2^64 - 1).
Proof. vm_compute. reflexivity. Qed.
Lemma num_u64 o bl : is_u64 (num o 8 bl).
Proof. pose proof (num_range o 8 bl ltac:(lia)). unfold is_u64. change (2^64) with (256^8). lia. Qed.
Lemma raw_tuple bl i : wf_tuple (i_owner (raw_item bl i)) (i_key (raw_item bl i)) (i_gen (raw_item bl i)).
Proof.
  cbn [raw_item i_owner i_key i_gen]. split; [apply num_u64|]. split; [|apply num_u64].
  split; [apply num_u64|]. split; [|apply num_u64]. cbn [KType]. pose proof (num_range (ihead i + 8) 1 bl ltac:(lia)). unfold is_u8. change (2^8) with (256^1). lia.
Qed.
Lemma newIndexKey_inj o k g o' k' g' : wf_tuple o k g -> wf_tuple o' k' g' -> newIndexKey o k g = newIndexKey o' k' g' -> o = o' /\ k = k' /\ g = g'.
Proof.
  intros W W' E. destruct (ik_built _ _ _ W) as (A1 & _ & _ & _ & A2 & A3). destruct (ik_built _ _ _ W') as (B1 & _ & _ & _ & B2 & B3).
  pose proof (f_equal ik_Owner E). pose proof (f_equal ik_Key E). pose proof (f_equal ik_Generation E). repeat split; congruence.
Qed.
Lemma scanned_items id content bs k is c : scanned id content bs k is c -> forall i, In i is -> exists j n, Z.of_nat j < image_blocks content bs /\ i = raw_item (image_block content bs j) (Z.of_nat n) /\ item_readable (image_block content bs j) (Z.of_nat n).
Proof.
  intros H. induction H as [k Hk|k is c Hk HF HS IH|k is c Hk HF HR HS IH|k m Hk HF Hm HU HR]; intros i Hi.
  - contradiction.
  - auto.
  - apply in_app_or in Hi as [Hi|Hi]; [|auto]. unfold raw_items in Hi. apply in_map_iff in Hi as (n & <- & Hn). apply in_seq in Hn. exists k, n. split; [exact Hk|]. split; [reflexivity|apply HR; lia].
  - apply in_map_iff in Hi as (n & <- & Hn). apply in_seq in Hn. exists k, n. split; [exact Hk|]. split; [reflexivity|]. apply HR. lia.
Qed.
Lemma scanned_wf id content bs k is c : big_enough content bs -> scanned id content bs k is c -> (forall i, In i is -> ~ reserved i) ->
  Forall wf_ins is /\ Forall (fun i => length (i_item i) = 25%nat) is.
Proof.
  intros HB HS HR. rewrite !Forall_forall. split; intros i Hi; destruct (scanned_items _ _ _ _ _ _ HS i Hi) as (j & n & Hj & -> & HI).
  - split; [apply raw_tuple|]. intros E. apply (HR _ Hi). rewrite metadata_tuple in E. apply newIndexKey_inj in E; [exact E|apply raw_tuple|].
    unfold wf_tuple, wf_Key, is_u64, is_u8. cbn [ObjectID KType KOffset]. lia.
  - cbn [raw_item i_item]. destruct HI as (HI & _). apply Nat2Z.inj. change (Z.of_nat (length ?x)) with (zlen x). fold (zlen (sub (ihead (Z.of_nat n)) 25 (image_block content bs j))).
    unfold sub. rewrite zlen_firstn_le by lia. rewrite zlen_skipn_le by (unfold ihead in *; lia). lia.
Qed.

(** *** C37, any image *)
Lemma get_metadata_puts is : forall b0, Forall wf_ins is -> opened b0 -> get (fold_left put_ins is b0) metadataKey = get b0 metadataKey.
Proof.
  induction is as [|i is IH]; intros b0 W1 Op; [reflexivity|]. inversion W1 as [|? ? [WT Hne] W1']; subst. cbn [fold_left].
  rewrite IH; [|exact W1'|apply put_opened; [exact Op|apply newIndexKey_length|exact Hne]].
  destruct Op as [W [m Hm]]. destruct (put_spec b0 (newIndexKey (i_owner i) (i_key i) (i_gen i)) (insert_value (i_item i) (i_data i)) W (newIndexKey_length _ _ _)) as [W' HP].
  assert (G : get b0 metadataKey = Some m) by (apply get_In; assumption). rewrite G. apply get_In; [exact W'|]. apply HP. right. split; [exact Hm|]. cbn [fst]. congruence.
Qed.
(** Whatever the image contains: the file afterwards holds, under (owner, key,
    generation), the last scanned item with that tuple, or what it held before if
    there is none; and the scan completes exactly if no leaf is unreadable. *)
Theorem C37_any_image_partial : forall id content bs d b0 ix0,
  big_enough content bs -> 101 <= bs < 2^32 -> length id = 16%nat -> id <> repeat x00 16 -> (forall b1, d = Some b1 -> wf_bucket b1) ->
  openIndex true (mkOptions false bs id (2^64 - 1) false) d = Ok (Some b0, Some ix0) ->
  exists is c, scanned id content bs 0 is c /\
  ((forall i, In i is -> ~ reserved i) ->
   exists b', doScanFS true true no_faults (file_dev content) bs id d = (Some b', if c then XOk else XPanic) /\ opened b' /\
    get b' metadataKey = get b0 metadataKey /\
    forall o k g v, wf_tuple o k g ->
      ~ (o = 2^64 - 1 /\ k = mkKey (2^64 - 256) 255 (2^64 - 1) /\ g = 2^64 - 1) ->
      (stored b' o k g v <->
       (exists a i z, is = a ++ i :: z /\ same_tuple i o k g /\ v = i_item i ++ i_data i /\ forall j, In j z -> ~ same_tuple j o k g) \/
       (stored b0 o k g v /\ forall j, In j is -> ~ same_tuple j o k g))).
Proof.
  intros id content bs d b0 ix0 HB Hb Hlen Hid Hwf HO.
  destruct (image_scanned id content bs HB Hb) as (is & c & HS & HT). exists is, c. split; [exact HS|]. intros HN.
  destruct (recon_run id content bs d (Some b0) ix0 HB Hid HO) as (b0' & E0 & HR). injection E0 as <-.
  rewrite HT in HR. cbn [fst snd] in HR. destruct (scanned_wf _ _ _ _ _ _ HB HS HN) as [W1 W2].
  pose proof (opened_after_open d (mkOptions false bs id (2^64-1) false) b0 ix0 Hwf Hlen HO) as Op.
  exists (fold_left put_ins is b0). split; [exact HR|]. split; [apply puts_opened; assumption|]. split; [apply get_metadata_puts; assumption|].
  intros o k g v HTu _. rewrite (stored_after is b0 o k g v (proj1 Op) W1 HTu).
  assert (HV : forall i, In i is -> insert_value (i_item i) (i_data i) = i_item i ++ i_data i).
  { intros i Hi. apply insert_value_25. rewrite Forall_forall in W2. exact (W2 i Hi). }
  split.
  - intros [(a & i & z & E & A & -> & B)|H]; [left|right; exact H]. exists a, i, z. split; [exact E|]. split; [exact A|]. split; [|exact B].
    apply HV. rewrite E. apply in_or_app. right. left. reflexivity.
  - intros [(a & i & z & E & A & -> & B)|H]; [left|right; exact H]. exists a, i, z. split; [exact E|]. split; [exact A|]. split; [|exact B].
    symmetry. apply HV. rewrite E. apply in_or_app. right. left. reflexivity.
Qed.

(** *** C39: the exact condition under which a scan gets to the end *)
Theorem C39_completes_iff_partial : forall id content bs d b0 ix0,
  big_enough content bs -> 101 <= bs < 2^32 -> id <> repeat x00 16 ->
  openIndex true (mkOptions false bs id (2^64 - 1) false) d = Ok (Some b0, Some ix0) ->
  let st := snd (doScanFS true true no_faults (file_dev content) bs id d) in
  (st = XOk <-> forall k, Z.of_nat k < image_blocks content bs -> good_block id (image_block content bs k)) /\
  (st <> XOk -> st = XPanic).
Proof.
  intros id content bs d b0 ix0 HB Hb Hid HO st.
  destruct (image_scanned id content bs HB Hb) as (is & c & HS & HT).
  destruct (recon_run id content bs d (Some b0) ix0 HB Hid HO) as (b0' & E0 & HR). rewrite HT in HR. cbn [fst snd] in HR.
  unfold st. rewrite HR. cbn [snd]. pose proof (scanned_complete _ _ _ _ _ _ HS) as HC. split.
  - transitivity (c = true); [destruct c; split; congruence|]. rewrite HC. split; intros H k; [intros Hk; apply H; lia|intros _ Hk; apply H; exact Hk].
  - destruct c; congruence.
Qed.

(** *** C38 *)
Lemma bucket_ext : forall b b', wf_bucket b -> wf_bucket b' -> (forall e, In e b <-> In e b') -> b = b'.
Proof.
  induction b as [|e b IH]; intros b' W W' H.
  - destruct b' as [|e' b']; [reflexivity|]. exfalso. apply (H e'). left. reflexivity.
  - destruct b' as [|e' b']; [exfalso; apply (H e); left; reflexivity|].
    assert (E : e = e').
    { assert (H1 : In e (e' :: b')) by (apply H; left; reflexivity). assert (H2 : In e' (e :: b)) by (apply H; left; reflexivity).
      destruct H1 as [H1|H1]; [congruence|]. destruct H2 as [H2|H2]; [congruence|].
      pose proof (sorted_lt _ _ W e' H2). pose proof (sorted_lt _ _ W' e H1). lia. }
    subst e'. f_equal. apply IH; [exact (wf_cons _ _ W)|exact (wf_cons _ _ W')|].
    intros x. specialize (H x). cbn [In] in H. split; intros Hx.
    + destruct (proj1 H (or_intror Hx)) as [<-|]; [pose proof (sorted_lt _ _ W e Hx); lia|assumption].
    + destruct (proj2 H (or_intror Hx)) as [<-|]; [pose proof (sorted_lt _ _ W' e Hx); lia|assumption].
Qed.
Definition ikey (i : insertion) : list byte := newIndexKey (i_owner i) (i_key i) (i_gen i).
Definition ival (i : insertion) : list byte := insert_value (i_item i) (i_data i).
(** e is the last written entry under its key *)
Definition last_in (is : list insertion) (e : entry) : Prop := exists a i z, is = a ++ i :: z /\ e = (ikey i, ival i) /\ forall j, In j z -> ikey j <> fst e.
Lemma puts_In is : forall b, wf_bucket b -> wf_bucket (fold_left put_ins is b) /\
  forall e, In e (fold_left put_ins is b) <-> last_in is e \/ (In e b /\ forall j, In j is -> ikey j <> fst e).
Proof.
  induction is as [|i is IH]; intros b W; cbn [fold_left].
  - split; [exact W|]. intros e. split; [intros He; right; split; [exact He|intros j []]|]. intros [(a & i & z & E & _)|[H _]]; [destruct a; discriminate|exact H].
  - destruct (put_spec b (ikey i) (ival i) W (newIndexKey_length _ _ _)) as [W1 HP]. change (put_ins b i) with (put b (ikey i) (ival i)).
    destruct (IH _ W1) as [W2 HI]. split; [exact W2|]. intros e. rewrite HI, HP. split.
    + intros [(a & j & z & E & A & B)|[[->|[H1 H2]] H3]].
      * left. exists (i :: a), j, z. split; [rewrite E; reflexivity|auto].
      * left. exists [], i, is. split; [reflexivity|]. split; [reflexivity|exact H3].
      * right. split; [exact H1|]. intros j [<-|Hj]; [congruence|auto].
    + intros [(a & j & z & E & A & B)|[H1 H2]].
      * destruct a as [|x a]; cbn [app] in E; injection E as -> ->.
        -- right. split; [left; exact A|exact B].
        -- left. exists a, j, z. auto.
      * right. split; [right; split; [exact H1|]|]; [intros E; apply (H2 i (or_introl eq_refl)); congruence|intros j Hj; apply H2; right; exact Hj].
Qed.
Lemma puts_idem is b : wf_bucket b -> fold_left put_ins is (fold_left put_ins is b) = fold_left put_ins is b.
Proof.
  intros W. destruct (puts_In is b W) as [W1 H1]. destruct (puts_In is _ W1) as [W2 H2]. apply bucket_ext; [exact W2|exact W1|].
  intros e. rewrite H2, H1. tauto.
Qed.
Lemma reopen bs id d b0 ix0 b' : 0 <= bs < 2^32 -> length id = 16%nat -> (forall b1, d = Some b1 -> wf_bucket b1) ->
  openIndex true (mkOptions false bs id (2^64 - 1) false) d = Ok (Some b0, Some ix0) -> wf_bucket b' -> get b' metadataKey = get b0 metadataKey ->
  exists ix, openIndex true (mkOptions false bs id (2^64 - 1) false) (Some b') = Ok (Some b', Some ix).
Proof.
  intros Hb Hlen Hwf HO W' G. set (o := mkOptions false bs id (2^64 - 1) false) in *.
  assert (NEW : forall b1, wf_bucket b1 -> get (put b1 metadataKey (newIndexMetadata o)) metadataKey = Some (md_record 20190809 (u32 bs) id (2^64 - 1))).
  { intros b1 W. destruct (put_spec b1 metadataKey (newIndexMetadata o) W) as [W1 HI]; [reflexivity|]. apply get_In; [exact W1|]. apply HI. left. reflexivity. }
  assert (DONE : get b' metadataKey = Some (md_record 20190809 (u32 bs) id (2^64 - 1)) -> exists ix, openIndex true o (Some b') = Ok (Some b', Some ix)).
  { intros G'. destruct (C25_open_existing o b' _ _ _ _ W' G') as [[_ (ix & H & _)]|[H _]]; [unfold is_u64; lia|apply u32_range|exact Hlen|eauto|].
    exfalso. apply H. unfold compatible, o. cbn. split; [lia|]. split; [auto|]. right. right. auto. }
  unfold openIndex in HO. destruct (checkUpdateMetadata true o d) as [[d1 e]| |] eqn:EC; cbn [rbind] in HO; try discriminate.
  assert (HD : d1 = Some b0 /\ e = ENone).
  { destruct e; [|discriminate]. destruct (ensureTx _ _ _) as [ix1 e1]. destruct e1; [|discriminate]. split; [congruence|reflexivity]. }
  destruct HD as [-> ->]. unfold checkUpdateMetadata in EC. change (o_ReadOnly o) with false in EC. cbn [orb] in EC. destruct d as [b1|].
  - destruct (get b1 metadataKey) as [m|] eqn:G1.
    + destruct (check_metadata o m) as [e| |] eqn:CM; cbn [rbind] in EC; try discriminate. destruct e; [|discriminate]. injection EC as ->.
      rewrite G1 in G. unfold openIndex, checkUpdateMetadata. rewrite G, CM. cbn [rbind]. change (o_ReadOnly o) with false. cbn [orb rbind]. eexists. reflexivity.
    + injection EC as <-. apply DONE. rewrite G. apply NEW. apply Hwf. reflexivity.
  - injection EC as <-. apply DONE. rewrite G. apply (NEW []). split; [cbn; exact Logic.I|constructor].
Qed.
(** Unless an item of the image carries the reserved key of the metadata record,
    the second scan also ends in the same way (completed or aborted). *)
Theorem C38_same_outcome : forall id content bs d d' st,
  big_enough content bs -> 101 <= bs < 2^32 -> length id = 16%nat -> id <> repeat x00 16 -> (forall b1, d = Some b1 -> wf_bucket b1) ->
  (exists b0 ix0, openIndex true (mkOptions false bs id (2^64 - 1) false) d = Ok (Some b0, Some ix0)) ->
  (forall is c, scanned id content bs 0 is c -> forall i, In i is -> ~ reserved i) ->
  doScanFS true true no_faults (file_dev content) bs id d = (d', st) ->
  doScanFS true true no_faults (file_dev content) bs id d' = (d', st).
Proof.
  intros id content bs d d' st HB Hb Hlen Hid Hwf (b0 & ix0 & HO) HN HR.
  destruct (image_scanned id content bs HB Hb) as (is & c & HS & HT). specialize (HN is c HS).
  destruct (recon_run id content bs d (Some b0) ix0 HB Hid HO) as (b0' & E0 & HR'). injection E0 as <-. rewrite HT in HR'. cbn [fst snd] in HR'.
  rewrite HR' in HR. injection HR as <- <-. destruct (scanned_wf _ _ _ _ _ _ HB HS HN) as [W1 W2].
  pose proof (opened_after_open d (mkOptions false bs id (2^64-1) false) b0 ix0 Hwf Hlen HO) as Op.
  destruct (reopen bs id d b0 ix0 (fold_left put_ins is b0)) as (ix & HO2); try assumption; [lia|apply puts_opened; assumption|apply get_metadata_puts; assumption|].
  destruct (recon_run id content bs (Some (fold_left put_ins is b0)) (Some (fold_left put_ins is b0)) ix HB Hid HO2) as (b2 & E2 & ->). injection E2 as <-.
  rewrite HT. cbn [fst snd]. rewrite puts_idem by apply Op. reflexivity.
Qed.
(** For every image, outcome and previous content: scanning the same image again
    leaves the file, entry for entry, as the first scan left it. *)
Lemma item_key_bytes l i ins : slice_wf l -> 0 <= i -> leaf_insertion l i = Ok ins ->
  le_decode (firstn 8 (i_item ins)) = ObjectID (i_key ins).
Proof.
  intros W Hi H. unfold leaf_insertion, Leaf_Key, Leaf_Item in H. change HeaderLen with 101 in H. change ItemLen with 25 in H. change itemKey with 0 in H.
  rewrite Z.add_0_r in H. set (p := 101 + i * 25) in *. assert (Hp : 0 <= p) by (unfold p; lia). clearbody p.
  destruct (atKey p l) as [k| |] eqn:EK; cbn [rbind] in H; try discriminate.
  destruct (go_slice l p (p + 25)) as [it| |] eqn:EI; cbn [rbind] in H; try discriminate.
  destruct (Leaf_Data l i) as [dd| |]; cbn [rbind] in H; try discriminate.
  destruct (Header_Owner l) as [o| |]; cbn [rbind] in H; try discriminate. destruct (Header_Generation l) as [g| |]; cbn [rbind] in H; try discriminate.
  injection H as <-. cbn [i_item i_key].
  assert (Hs : p <= s_len l).
  { destruct (Z_le_dec p (s_len l)) as [|N]; [assumption|]. exfalso. unfold atKey, go_from in EK. rewrite go_slice_panic in EK by lia. discriminate. }
  rewrite atKey_parts in EK by (try exact W; lia). rewrite at64_exact in EK by exact W. destruct (readable p 8 l); cbn [rbind] in EK; [|discriminate].
  destruct (at8 _ _) as [t| |]; cbn [rbind] in EK; try discriminate. destruct (at64 _ _) as [f| |]; cbn [rbind] in EK; try discriminate. injection EK as <-. cbn [ObjectID].
  apply go_slice_inv in EI as (A & B & ->). unfold sbytes, bytes_at. cbn [s_arr s_len]. rewrite firstn_firstn. do 2 f_equal. lia.
Qed.
Lemma trace_all (P : insertion -> Prop) : (forall l i ins, slice_wf l -> 0 <= i -> leaf_insertion l i = Ok ins -> P ins) ->
  forall id content bs n k, Forall P (fst (blocks_trace id content bs n k)).
Proof.
  intros HP id content bs.
  assert (HI : forall l, slice_wf l -> forall n i, 0 <= i -> Forall P (fst (items_trace l n i))).
  { intros l W. induction n as [|n IH]; intros i Hi; cbn [items_trace]; [constructor|]. destruct (leaf_insertion l i) as [ins| |] eqn:E; [|constructor..].
    specialize (IH (i + 1) ltac:(lia)). destruct (items_trace l n (i + 1)). constructor; [exact (HP l i ins W Hi E)|exact IH]. }
  induction n as [|n IH]; intros k; cbn [blocks_trace]; [constructor|].
  assert (HB : Forall P (fst (block_trace id (image_block content bs k)))).
  { unfold block_trace. destruct (w <- _ ;; _) as [[m|]| |]; try constructor. apply HI; [apply sl_wf|lia]. }
  destruct (block_trace id (image_block content bs k)) as [is st]. destruct st; [|exact HB..].
  specialize (IH (S k)). destruct (blocks_trace id content bs n (S k)) as [is' st']. cbn [fst] in *. apply Forall_app. auto.
Qed.
(** the metadata record afterwards: the old one, or the value of the last item
    with the reserved key *)
Lemma metadata_after is b0 : opened b0 ->
  get (fold_left put_ins is b0) metadataKey = get b0 metadataKey \/
  exists i, In i is /\ ikey i = metadataKey /\ get (fold_left put_ins is b0) metadataKey = Some (ival i).
Proof.
  intros [W (m & Hm)]. destruct (puts_In is b0 W) as [W' HI].
  destruct (in_dec (list_eq_dec byte_eq_dec) metadataKey (map ikey is)) as [HIn|HNo].
  - assert (HX : exists e, last_in is e /\ fst e = metadataKey).
    { clear -HIn. induction is as [|i is IH]; [contradiction|]. destruct (in_dec (list_eq_dec byte_eq_dec) metadataKey (map ikey is)) as [H|H].
      - destruct (IH H) as (e & (a & j & z & E & A & B) & HF). exists e. split; [|exact HF]. exists (i :: a), j, z. split; [rewrite E; reflexivity|auto].
      - destruct HIn as [E|HIn]; [|contradiction]. exists (ikey i, ival i). split; [|exact E]. exists [], i, is. split; [reflexivity|]. split; [reflexivity|].
        intros j Hj EJ. cbn [fst] in EJ. apply H. apply in_map_iff. exists j. split; [congruence|exact Hj]. }
    destruct HX as (e & HL & HF). right. pose proof HL as (a & i & z & E & A & B). exists i. rewrite A in HF. cbn [fst] in HF.
    split; [rewrite E; apply in_or_app; right; left; reflexivity|]. split; [exact HF|]. apply get_In; [exact W'|]. apply HI. left. rewrite A in HL. rewrite <- HF. exact HL.
  - left. rewrite (proj2 (get_In b0 metadataKey m W) Hm). apply get_In; [exact W'|]. apply HI. right. split; [exact Hm|]. intros j Hj E. apply HNo. apply in_map_iff. exists j. split; [exact E|exact Hj].
Qed.
Lemma at64_range o s v : slice_wf s -> at64 o s = Ok v -> is_u64 v.
Proof.
  intros W H. rewrite at64_exact in H by exact W. destruct (readable o 8 s); [|discriminate]. injection H as <-.
  unfold bytes_at. pose proof (le_decode_range (firstn (Z.to_nat 8) (skipn (Z.to_nat o) (s_arr s)))) as R.
  rewrite zlen_firstn_le in R by lia. pose proof (Z.pow_le_mono_r 256 (Z.min 8 (zlen (skipn (Z.to_nat o) (s_arr s)))) 8). unfold is_u64. change (2^64) with (256^8). lia.
Qed.
Lemma ins_tuple l i ins : slice_wf l -> 0 <= i -> leaf_insertion l i = Ok ins ->
  wf_tuple (i_owner ins) (i_key ins) (i_gen ins) /\ length (i_item ins) = 25%nat.
Proof.
  intros W Hi H. unfold leaf_insertion in H. destruct (Leaf_Key l i) as [k| |] eqn:EK; cbn [rbind] in H; try discriminate.
  destruct (Leaf_Item l i) as [it| |] eqn:EI; cbn [rbind] in H; try discriminate. destruct (Leaf_Data l i) as [dd| |]; cbn [rbind] in H; try discriminate.
  destruct (Header_Owner l) as [o| |] eqn:EO; cbn [rbind] in H; try discriminate. destruct (Header_Generation l) as [g| |] eqn:EG; cbn [rbind] in H; try discriminate.
  injection H as <-. cbn [i_owner i_key i_gen i_item]. apply at64_range in EO; [|exact W]. apply at64_range in EG; [|exact W].
  assert (WK : wf_Key k).
  { unfold Leaf_Key in EK. revert EK. change HeaderLen with 101. change ItemLen with 25. change itemKey with 0. assert (Hp : 0 <= 101 + i * 25 + 0) by lia.
    revert Hp. generalize (101 + i * 25 + 0). intros p Hp EK.
    assert (Hs : p <= s_len l).
    { destruct (Z_le_dec p (s_len l)) as [|N]; [assumption|]. exfalso. unfold atKey, go_from in EK. rewrite go_slice_panic in EK by lia. discriminate. }
    rewrite atKey_parts in EK by (try exact W; lia). destruct (at64 p l) as [a| |] eqn:Ea; cbn [rbind] in EK; try discriminate.
    destruct (at8 _ l) as [t| |] eqn:Et; cbn [rbind] in EK; try discriminate. destruct (at64 (p + 9) l) as [f| |] eqn:Ef; cbn [rbind] in EK; try discriminate. assert (k = mkKey a t f) as -> by congruence.
    apply at64_range in Ea; [|exact W]. apply at64_range in Ef; [|exact W]. rewrite at8_exact in Et. destruct (_ && _); [|discriminate]. injection Et as <-.
    split; [exact Ea|]. split; [|exact Ef]. cbn [KType]. pose proof (bz_range (nth (Z.to_nat (p + 8)) (s_arr l) x00)). unfold is_u8. lia. }
  split; [split; [exact EO|split; [exact WK|exact EG]]|].
  pose proof (go_slice_wf _ _ _ _ EI) as WI. pose proof (zlen_sbytes it WI) as LI. unfold Leaf_Item in EI. apply go_slice_inv in EI as (_ & _ & ->). cbn [s_len] in LI. unfold zlen in LI. change ItemLen with 25 in *. lia.
Qed.
Theorem C38_again : forall id content bs d d' st,
  0 <= bs < 2^32 -> zlen content < 2^63 -> length id = 16%nat -> (forall b, d = Some b -> wf_bucket b) ->
  doScanFS true true no_faults (file_dev content) bs id d = (d', st) ->
  fst (doScanFS true true no_faults (file_dev content) bs id d') = d'.
Proof.
  intros id content bs d d' st Hb Hc Hlen Hwf HR.
  (* commands that stop before the scan leave the file alone *)
  destruct (bytes_eqb id (repeat x00 16)) eqn:EZ.
  { unfold doScanFS in *. rewrite EZ in *. reflexivity. }
  assert (Hid : id <> repeat x00 16) by (apply bytes_eqb_neq; exact EZ).
  assert (HB : big_enough content bs \/ ~ big_enough content bs) by (unfold big_enough; lia).
  destruct HB as [HB|HB].
  2:{ unfold doScanFS in *. rewrite EZ in *. destruct (CheckDeviceSize (dev_seek (file_dev content)) bs) as [size ok] eqn:EC. destruct ok; cbn [negb] in *; [|reflexivity].
      destruct (bs =? 0) eqn:E0; [reflexivity|]. exfalso. apply HB. unfold CheckDeviceSize, file_dev, dev_seek, SuperInfoOffset2 in EC.
      pose proof (zlen_nonneg content). unfold u64 in EC. rewrite !Z.mod_small in EC by lia. destruct (zlen content <? bs) eqn:E1; [discriminate|].
      destruct (zlen content <? 67108864 + bs * 100) eqn:E2; [discriminate|]. unfold big_enough. lia. }
  (* the open at the start of the first scan *)
  destruct (openIndex true (mkOptions false bs id (2^64 - 1) false) d) as [[d0 [ix0|]]| |] eqn:HO.
  2:{ assert (d' = d0 /\ d0 = d) as [-> ->]; [|].
      { split.
        - unfold doScanFS in HR. rewrite EZ in HR. rewrite (size_check content bs HB : CheckDeviceSize (dev_seek (file_dev content)) bs = _) in HR. cbn [negb] in HR.
          replace (bs =? 0) with false in HR by (destruct HB; lia). change max64 with (2^64 - 1) in HR. rewrite HO in HR. congruence.
        - unfold openIndex in HO. destruct (checkUpdateMetadata _ _ d) as [[d1 e]| |] eqn:EC; cbn [rbind] in HO; try discriminate. destruct e.
          + unfold checkUpdateMetadata in EC. cbn [o_ReadOnly orb] in EC. unfold ensureTx, begin_tx in HO. cbn in HO. destruct d1; discriminate.
          + injection HO as <-. unfold checkUpdateMetadata in EC. cbn [o_ReadOnly orb] in EC. destruct d as [b|]; [|discriminate]. destruct (get b metadataKey) as [m|]; [|discriminate].
            destruct (check_metadata _ m) as [e| |]; cbn [rbind] in EC; try discriminate. destruct e; [discriminate|congruence]. }
      rewrite HR. reflexivity. }
  2-3: assert (d' = d) as -> by (unfold doScanFS in HR; rewrite EZ in HR; rewrite (size_check content bs HB : CheckDeviceSize (dev_seek (file_dev content)) bs = _) in HR; cbn [negb] in HR;
          replace (bs =? 0) with false in HR by (destruct HB; lia); change max64 with (2^64 - 1) in HR; rewrite HO in HR; congruence); rewrite HR; reflexivity.
  destruct (recon_run id content bs d d0 ix0 HB Hid HO) as (b0 & -> & HR'). rewrite HR' in HR. injection HR as <- <-.
  pose proof (opened_after_open d (mkOptions false bs id (2^64-1) false) b0 ix0 Hwf Hlen HO) as Op.
  set (is := fst (image_trace id content bs)).
  assert (HI : Forall (fun i => le_decode (firstn 8 (i_item i)) = ObjectID (i_key i)) is) by (unfold is, image_trace; apply trace_all; exact item_key_bytes).
  assert (HT : Forall (fun i => wf_tuple (i_owner i) (i_key i) (i_gen i) /\ length (i_item i) = 25%nat) is) by (unfold is, image_trace; apply trace_all; exact ins_tuple).
  pose proof (proj1 (puts_In is b0 (proj1 Op))) as W'.
  destruct (metadata_after is b0 Op) as [G|(i & Hi & HK & G)].
  - destruct (reopen bs id d b0 ix0 (fold_left put_ins is b0)) as (ix & HO2); try assumption.
    destruct (recon_run id content bs (Some (fold_left put_ins is b0)) (Some (fold_left put_ins is b0)) ix HB Hid HO2) as (b2 & E2 & ->). injection E2 as <-.
    fold is. cbn [fst]. rewrite puts_idem by apply Op. reflexivity.
  - (* the metadata record was overwritten: the second run reports an unknown version *)
    unfold doScanFS. rewrite EZ. rewrite (size_check content bs HB : CheckDeviceSize (dev_seek (file_dev content)) bs = _). cbn [negb].
    replace (bs =? 0) with false by (destruct HB; lia). rewrite Forall_forall in HI, HT. destruct (HT i Hi) as [WT L]. specialize (HI i Hi).
    unfold ikey in HK. rewrite metadata_tuple in HK. apply newIndexKey_inj in HK as (_ & HK & _); [|exact WT|unfold wf_tuple, wf_Key, is_u64, is_u8; cbn [ObjectID KType KOffset]; lia].
    rewrite HK in HI. cbn [ObjectID] in HI.
    assert (V : md_Version (ival i) = Ok (2^64 - 256)).
    { unfold ival. rewrite insert_value_25 by exact L. unfold md_Version. change indexMetadataVersion with 0. rewrite at64_num; [|lia|rewrite zlen_app; unfold zlen at 1; rewrite L; pose proof (zlen_nonneg (i_data i)); lia].
      unfold num, sub. change (Z.to_nat 0) with 0%nat. change (Z.to_nat 8) with 8%nat. cbn [skipn]. rewrite firstn_app, L. change (8 - 25)%nat with 0%nat; cbn [firstn]. rewrite app_nil_r. f_equal. exact HI. }
    unfold openIndex, checkUpdateMetadata. rewrite G. unfold check_metadata. rewrite V. cbn [rbind o_AllowOldVersion negb andb].
    change (2 ^ 64 - 256 <? MetadataVersion) with false. change (MetadataVersion <? 2 ^ 64 - 256) with true. cbn [andb rbind fst]. reflexivity.
Qed.
Print Assumptions C37_any_image_partial. Print Assumptions C39_completes_iff_partial. Print Assumptions C38_again. Print Assumptions C38_same_outcome.

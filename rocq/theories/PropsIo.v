(** Property theorems C35, C36: block reads and the device size check. *)
From Verif Require Import Go GoProofs IoUtil.
From Coq Require Import ZifyBool ZifyNat ZifyN.
Ltac Zify.zify_post_hook ::= Z.div_mod_to_equations.

(** ** C35 *)
(** the io.ReaderAt contract for a source with content [c] (Go documentation):
    the bytes returned are the ones at the offset; fewer than asked for only with
    an error; EOF only at the end of the input *)
Definition obeys (r : readerAt) (c : list byte) : Prop := forall n off data err, 0 <= n -> r n off = (data, err) ->
  zlen data <= n /\ (0 <= off -> data = firstn (length data) (skipn (Z.to_nat off) c)) /\ (off < 0 -> data = []) /\
  (zlen data < n -> err <> None) /\ (err = Some EOF -> 0 <= off /\ zlen c <= off + zlen data).
Theorem C35_full_or_error : forall r c block off block', obeys r c -> is_u64 off -> ReadBlockAt r block off = (block', None) ->
  0 < zlen block -> off < 2^63 /\ off + zlen block <= zlen c /\
  block' = firstn (length block) (skipn (Z.to_nat off) c).
Proof.
  intros r c block off block' Hr Ho H Hpos. unfold ReadBlockAt in H. destruct (r (zlen block) (i64 off)) as [data err] eqn:E.
  destruct (Hr _ _ _ _ (zlen_nonneg _) E) as (H1 & H2 & H3 & H4 & H5). destruct err as [e|]; [discriminate|].
  assert (L : zlen data = zlen block). { destruct (Z.lt_ge_cases (zlen data) (zlen block)) as [Hl|]; [destruct (H4 Hl); reflexivity|lia]. }
  assert (Hoff : 0 <= i64 off). { destruct (Z.lt_ge_cases (i64 off) 0) as [Hl|]; [|lia]. rewrite (H3 Hl) in L. rewrite zlen_nil in L. lia. }
  assert (off < 2^63 /\ i64 off = off) as [H6 E6] by (unfold i64, is_u64 in *; lia). rewrite E6 in *. specialize (H2 Hoff).
  assert (Hb : block' = data).
  { rewrite L, Z.eqb_refl in H. injection H as <-. rewrite skipn_all2 by (unfold zlen in L; lia). apply app_nil_r. }
  split; [exact H6|]. split.
  - assert (length data = Nat.min (length data) (length (skipn (Z.to_nat off) c))) as Hlen by (rewrite H2 at 1; apply firstn_length).
    rewrite skipn_length in Hlen. unfold zlen in *. lia.
  - rewrite Hb, H2. f_equal. unfold zlen in L. lia.
Qed.
(** full reads succeed for readers that report no error on a full read *)
Theorem C35_file_reader_partial : forall c block off, is_u64 off -> off < 2^63 ->
  obeys (file_reader c) c /\
  (off + zlen block <= zlen c -> ReadBlockAt (file_reader c) block off = (firstn (length block) (skipn (Z.to_nat off) c), None)) /\
  (zlen c < off + zlen block -> 0 < zlen block -> snd (ReadBlockAt (file_reader c) block off) = Some EOF).
Proof.
  intros c block off Ho Hoff. split; [|split].
  - intros n o data err Hn H. unfold file_reader in H. destruct (o <? 0) eqn:E.
    + injection H as <- <-. rewrite zlen_nil. repeat split; try lia; discriminate.
    + set (d := firstn (Z.to_nat n) (skipn (Z.to_nat o) c)) in *. injection H as <- <-.
      assert (Hd : length d = Nat.min (Z.to_nat n) (length c - Z.to_nat o)) by (unfold d; rewrite firstn_length, skipn_length; reflexivity).
      repeat split; try (unfold zlen; lia).
      * intros _. rewrite Hd. unfold d. rewrite <- skipn_length, <- firstn_length. rewrite firstn_length. rewrite <- (firstn_firstn (skipn (Z.to_nat o) c) (Z.to_nat n)).
        f_equal. symmetry. apply firstn_all.
      * intros Hl. replace (zlen d <? n) with true by lia. discriminate.
      * destruct (zlen d <? n) eqn:El; [|discriminate]. unfold zlen in *. lia.
  - intros Hf. unfold ReadBlockAt, file_reader. assert (i64 off = off) as -> by (apply i64_small; unfold is_u64 in Ho; lia).
    replace (off <? 0) with false by (unfold is_u64 in Ho; lia). replace (Z.to_nat (zlen block)) with (length block) by (unfold zlen; lia).
    assert (Hd : length (firstn (length block) (skipn (Z.to_nat off) c)) = length block) by (rewrite firstn_length, skipn_length; unfold zlen, is_u64 in *; lia).
    unfold zlen at 1. rewrite Hd. rewrite Z.ltb_irrefl. unfold zlen. rewrite Hd, Z.eqb_refl. rewrite skipn_all. rewrite app_nil_r. reflexivity.
  - intros Hf Hp. unfold ReadBlockAt, file_reader. assert (i64 off = off) as -> by (apply i64_small; unfold is_u64 in Ho; lia).
    replace (off <? 0) with false by (unfold is_u64 in Ho; lia). set (d := firstn _ _).
    assert (Hd : length d = Nat.min (length block) (length c - Z.to_nat off)) by (unfold d; rewrite firstn_length, skipn_length; unfold zlen; lia).
    replace (zlen d <? zlen block) with true by (unfold zlen, is_u64 in *; lia). reflexivity.
Qed.
(** a reader obeying the contract may return EOF together with the full block;
    ReadBlockAt then reports EOF although the block was read *)
Definition eager_reader (c : list byte) : readerAt := fun n off =>
  if off <? 0 then ([], Some EOther)
  else let d := firstn (Z.to_nat n) (skipn (Z.to_nat off) c) in (d, if zlen c <=? off + zlen d then Some EOF else None).
Theorem C35_eof_on_full_read_refuted : exists r c block, obeys r c /\ ReadBlockAt r block 0 = (c, Some EOF) /\ zlen c = zlen block /\ 0 < zlen block.
Proof.
  exists (eager_reader [x01; x02]), [x01; x02], [x00; x00]. split; [|vm_compute; auto].
  intros n o data err Hn H. unfold eager_reader in H. destruct (o <? 0) eqn:E.
  - injection H as <- <-. rewrite zlen_nil. repeat split; try lia; discriminate.
  - set (c := [x01; x02]) in *. set (d := firstn (Z.to_nat n) (skipn (Z.to_nat o) c)) in *. injection H as <- <-.
    assert (Hd : length d = Nat.min (Z.to_nat n) (length c - Z.to_nat o)) by (unfold d; rewrite firstn_length, skipn_length; reflexivity).
    repeat split; try (unfold zlen; lia).
    + intros _. rewrite Hd. unfold d. rewrite <- skipn_length, <- firstn_length. rewrite firstn_length. rewrite <- (firstn_firstn (skipn (Z.to_nat o) c) (Z.to_nat n)).
      f_equal. symmetry. apply firstn_all.
    + intros Hl. replace (zlen c <=? o + zlen d) with true; [discriminate|]. unfold zlen in *. lia.
    + destruct (zlen c <=? o + zlen d) eqn:El; [|discriminate]. unfold zlen in *. lia.
Qed.
(** a reader violating the contract with a short read and no error is not detected *)
Theorem C35_short_read_undetected_refuted : exists r block, ReadBlockAt r block 0 = ([x01; x00], None) /\ zlen (fst (r (zlen block) 0)) < zlen block.
Proof. exists (fun _ _ => ([x01], None)), [x00; x00]. vm_compute. auto. Qed.
Example C35_ex : obeys (file_reader [x01;x02;x03;x04]) [x01;x02;x03;x04] /\ ReadBlockAt (file_reader [x01;x02;x03;x04]) [x00;x00] 1 = ([x02;x03], None).
Proof. split; [apply (C35_file_reader_partial _ [] 0); [unfold is_u64; lia|lia]|vm_compute; reflexivity]. Qed.
Print Assumptions C35_full_or_error. Print Assumptions C35_file_reader_partial. Print Assumptions C35_eof_on_full_read_refuted. Print Assumptions C35_short_read_undetected_refuted.

(** ** C36 *)
(** for block sizes where 64 MiB + 100 blocks fits 64 bits the check is exact *)
Theorem C36_exact_partial : forall size blockSize, 0 <= size < 2^63 -> 0 <= blockSize -> 67108864 + 100 * blockSize < 2^64 ->
  fst (CheckDeviceSize (size, true) blockSize) = size /\
  (snd (CheckDeviceSize (size, true) blockSize) = true <-> blockSize <= size /\ 67108864 + 100 * blockSize <= size).
Proof.
  intros size bs Hs Hb Hm. unfold CheckDeviceSize. assert (u64 size = size) as -> by (apply u64_small; unfold is_u64; lia).
  assert (u64 (bs * 100) = bs * 100) as -> by (apply u64_small; unfold is_u64; lia).
  assert (u64 (SuperInfoOffset2 + bs * 100) = 67108864 + 100 * bs) as -> by (rewrite u64_small; [unfold SuperInfoOffset2; lia|unfold is_u64, SuperInfoOffset2; lia]).
  destruct (size <? bs) eqn:E1; cbn [fst snd]; [split; [reflexivity|split; [discriminate|lia]]|].
  destruct (size <? 67108864 + 100 * bs) eqn:E2; cbn [fst snd]; (split; [reflexivity|]); split; intros; try discriminate; try lia; reflexivity.
Qed.
(** a failing Seek is reported *)
Theorem C36_seek_error : forall size blockSize, snd (CheckDeviceSize (size, false) blockSize) = false.
Proof. reflexivity. Qed.
(** the product wraps: a small device passes with a huge block size; and block
    size 0 passes *)
Theorem C36_wraparound_refuted : exists size blockSize, 0 <= size < 2^63 /\ is_u64 blockSize /\ snd (CheckDeviceSize (size, true) blockSize) = true /\ size < 67108864 + 100 * blockSize.
Proof. exists (2^62), (2^62). vm_compute. repeat split; discriminate. Qed.
Theorem C36_zero_block_refuted : forall size, 67108864 <= size < 2^63 -> snd (CheckDeviceSize (size, true) 0) = true.
Proof. intros size H. apply C36_exact_partial; lia. Qed.
Example C36_ex : CheckDeviceSize (67108864 + 100 * 16384, true) 16384 = (68747264, true) /\ snd (CheckDeviceSize (68747263, true) 16384) = false.
Proof. vm_compute. auto. Qed.
Print Assumptions C36_exact_partial. Print Assumptions C36_seek_error. Print Assumptions C36_wraparound_refuted. Print Assumptions C36_zero_block_refuted.

(** Property theorem C31: NameHash. *)
From Verif Require Import Go Crc.
Open Scope N_scope.

(** ** specification: bit-serial CRC-32C (polynomial 0x1EDC6F41, reflected),
    register starts at 0xFFFFFFFE, bits of each byte least significant first, no
    final inversion. *)
(** the polynomial 0x1EDC6F41 with its 32 bits reversed *)
Definition reflect32 (x : N) : N := fold_left (fun a i => N.lor a (if N.testbit x i then 2 ^ (31 - i) else 0)) (map N.of_nat (seq 0 32)) 0.
Definition crc32c_bit (r : N) (b : bool) : N :=
  let fb := xorb (N.odd r) b in
  let r := N.div2 r in
  if fb then N.lxor r (reflect32 0x1EDC6F41) else r.
Definition byte_bits (b : byte) : list bool := map (fun i => N.testbit (Byte.to_N b) (N.of_nat i)) (seq 0 8).
Definition crc32c_bits (init : N) (bits : list bool) : N := fold_left crc32c_bit bits init.

Lemma reflect_castagnoli : reflect32 0x1EDC6F41 = castagnoli. Proof. reflexivity. Qed.
Lemma shift_eq c : crc_shift castagnoli c = N.lxor (N.div2 c) (if N.odd c then castagnoli else 0).
Proof.
  unfold crc_shift. replace (N.land c 1) with (c mod 2 ^ 1) by (symmetry; apply (N.land_ones c 1)).
  change (2 ^ 1) with 2. rewrite <- N.bit0_mod, N.bit0_odd. rewrite <- N.div2_spec. destruct (N.odd c); cbn [N.b2n N.eqb]; [reflexivity|].
  rewrite N.lxor_0_r. reflexivity.
Qed.
Lemma div2_lxor a b : N.div2 (N.lxor a b) = N.lxor (N.div2 a) (N.div2 b).
Proof. rewrite !N.div2_spec. apply N.shiftr_lxor. Qed.
Lemma odd_lxor a b : N.odd (N.lxor a b) = xorb (N.odd a) (N.odd b).
Proof. rewrite <- !N.bit0_odd. apply N.lxor_spec. Qed.
Lemma lxor_4 a b c d : N.lxor (N.lxor a b) (N.lxor c d) = N.lxor (N.lxor a c) (N.lxor b d).
Proof. apply N.bits_inj. intros n. rewrite !N.lxor_spec. destruct (N.testbit a n), (N.testbit b n), (N.testbit c n), (N.testbit d n); reflexivity. Qed.
Lemma shift_linear a b : crc_shift castagnoli (N.lxor a b) = N.lxor (crc_shift castagnoli a) (crc_shift castagnoli b).
Proof.
  rewrite !shift_eq, div2_lxor, odd_lxor, lxor_4. f_equal. destruct (N.odd a), (N.odd b); cbn [xorb]; rewrite ?N.lxor_0_r, ?N.lxor_0_l, ?N.lxor_nilpotent; reflexivity.
Qed.
Lemma shift_double a : crc_shift castagnoli (N.double a) = a.
Proof.
  rewrite shift_eq. replace (N.odd (N.double a)) with false. 2:{ destruct a; reflexivity. }
  rewrite N.lxor_0_r. apply N.div2_double.
Qed.
Lemma iter_linear n a b : Nat.iter n (crc_shift castagnoli) (N.lxor a b) = N.lxor (Nat.iter n (crc_shift castagnoli) a) (Nat.iter n (crc_shift castagnoli) b).
Proof. induction n as [|n IH]; [reflexivity|]. cbn [Nat.iter]. change (Nat.iter (S n) (crc_shift castagnoli)) with (fun x => crc_shift castagnoli (Nat.iter n (crc_shift castagnoli) x)). cbn beta. rewrite IH, shift_linear. reflexivity. Qed.
Lemma iter_shiftl n a : Nat.iter n (crc_shift castagnoli) (N.shiftl a (N.of_nat n)) = a.
Proof.
  induction n as [|n IH]; [apply N.shiftl_0_r|].
  assert (E : N.shiftl a (N.of_nat (S n)) = N.double (N.shiftl a (N.of_nat n))) by (rewrite Nat2N.inj_succ, N.shiftl_succ_r, N.double_spec; reflexivity).
  rewrite E.
  assert (H : forall m x, Nat.iter (S m) (crc_shift castagnoli) x = Nat.iter m (crc_shift castagnoli) (crc_shift castagnoli x)).
  { induction m as [|m IHm]; intros x; [reflexivity|]. change (Nat.iter (S (S m)) (crc_shift castagnoli) x) with (crc_shift castagnoli (Nat.iter (S m) (crc_shift castagnoli) x)). rewrite IHm. reflexivity. }
  rewrite H, shift_double. exact IH.
Qed.
(** a register is its low byte plus the rest *)
Lemma split_byte r : r = N.lxor (N.land r 0xff) (N.shiftl (N.shiftr r 8) 8).
Proof.
  apply N.bits_inj. intros n. rewrite N.lxor_spec, N.land_spec. change 255 with (N.ones 8).
  destruct (N.lt_ge_cases n 8).
  - rewrite N.ones_spec_low, N.shiftl_spec_low by assumption. destruct (N.testbit r n); reflexivity.
  - rewrite N.ones_spec_high, N.shiftl_spec_high', N.shiftr_spec' by assumption. rewrite N.sub_add by assumption. destruct (N.testbit r n); reflexivity.
Qed.
Lemma nth_table i : (i < 256) -> nth (N.to_nat i) (crc_table castagnoli) 0 = crc_entry castagnoli i.
Proof.
  intros H. unfold crc_table.
  rewrite (nth_indep _ 0 (crc_entry castagnoli (N.of_nat 0))) by (rewrite map_length, seq_length; lia).
  rewrite (map_nth (fun i => crc_entry castagnoli (N.of_nat i)) (seq 0 256) 0%nat). rewrite seq_nth by lia. f_equal. lia.
Qed.
Lemma lxor_byte_lt a b : a < 256 -> b < 256 -> N.lxor a b < 256.
Proof.
  intros Ha Hb. destruct (N.eq_dec (N.lxor a b) 0) as [->|Hne]; [lia|]. change 256 with (2 ^ 8). apply N.log2_lt_pow2; [lia|].
  pose proof (N.log2_lxor a b). assert (N.log2 a < 8) by (destruct (N.eq_dec a 0) as [->|]; [reflexivity|apply N.log2_lt_pow2; [lia|exact Ha]]).
  assert (N.log2 b < 8) by (destruct (N.eq_dec b 0) as [->|]; [reflexivity|apply N.log2_lt_pow2; [lia|exact Hb]]). lia.
Qed.
Lemma byte_lt b : Byte.to_N b < 256. Proof. pose proof (Byte.to_N_bounded b). lia. Qed.
Lemma land_ff_lt r : N.land r 255 < 256.
Proof. change 255 with (N.ones 8). rewrite N.land_ones. change 256 with (2 ^ 8). apply N.mod_lt. discriminate. Qed.
(** one byte by table = eight shifts of the register xored with the byte *)
Lemma crc_byte_iter r v : crc_byte (crc_table castagnoli) r v = Nat.iter 8 (crc_shift castagnoli) (N.lxor r (Byte.to_N v)).
Proof.
  unfold crc_byte. rewrite nth_table by (apply lxor_byte_lt; [apply land_ff_lt|apply byte_lt]). unfold crc_entry.
  rewrite !iter_linear. rewrite (split_byte r) at 3. rewrite iter_linear. change (N.shiftl (N.shiftr r 8) 8) with (N.shiftl (N.shiftr r 8) (N.of_nat 8)).
  rewrite iter_shiftl. rewrite !N.lxor_assoc. f_equal. apply N.lxor_comm.
Qed.
(** one data bit *)
Lemma bit_step r b : crc32c_bit r b = crc_shift castagnoli (N.lxor r (N.b2n b)).
Proof.
  unfold crc32c_bit. rewrite reflect_castagnoli, shift_eq, div2_lxor, odd_lxor.
  assert (N.div2 (N.b2n b) = 0) as -> by (destruct b; reflexivity). rewrite N.lxor_0_r.
  replace (N.odd (N.b2n b)) with b by (destruct b; reflexivity). destruct (xorb (N.odd r) b); [reflexivity|]. rewrite N.lxor_0_r. reflexivity.
Qed.
Lemma bits_step bits : forall r, fold_left crc32c_bit bits r =
  Nat.iter (length bits) (crc_shift castagnoli) (N.lxor r (fold_right (fun (b : bool) a => N.lxor (N.b2n b) (N.double a)) 0 bits)).
Proof.
  assert (H : forall m x, Nat.iter (S m) (crc_shift castagnoli) x = Nat.iter m (crc_shift castagnoli) (crc_shift castagnoli x)).
  { induction m as [|m IHm]; intros x; [reflexivity|]. change (Nat.iter (S (S m)) (crc_shift castagnoli) x) with (crc_shift castagnoli (Nat.iter (S m) (crc_shift castagnoli) x)). rewrite IHm. reflexivity. }
  induction bits as [|b bits IH]; intros r.
  - cbn. symmetry. apply N.lxor_0_r.
  - cbn [fold_left length fold_right]. rewrite IH, H. f_equal. rewrite <- N.lxor_assoc, (shift_linear _ (N.double _)), shift_double, bit_step. reflexivity.
Qed.
Lemma byte_bits_value v : fold_right (fun (b : bool) a => N.lxor (N.b2n b) (N.double a)) 0 (byte_bits v) = Byte.to_N v.
Proof. destruct v; reflexivity. Qed.
Lemma crc_byte_bits r v : crc_byte (crc_table castagnoli) r v = crc32c_bits r (byte_bits v).
Proof. rewrite crc_byte_iter. unfold crc32c_bits. rewrite bits_step, byte_bits_value. reflexivity. Qed.
Lemma crc_bytes p : forall r, fold_left (crc_byte (crc_table castagnoli)) p r = crc32c_bits r (flat_map byte_bits p).
Proof.
  induction p as [|v p IH]; intros r; [reflexivity|]. cbn [fold_left flat_map]. rewrite crc_byte_bits, IH. unfold crc32c_bits. rewrite fold_left_app. reflexivity.
Qed.
Lemma not32_invol x : not32 (not32 x) = x.
Proof. unfold not32. rewrite N.lxor_assoc, N.lxor_nilpotent, N.lxor_0_r. reflexivity. Qed.
Lemma log2_lt x n : 0 < n -> x < 2 ^ n -> N.log2 x < n.
Proof. intros Hn H. destruct (N.eq_dec x 0) as [->|Hx]; [exact Hn|]. apply N.log2_lt_pow2; [apply N.neq_0_lt_0; exact Hx|exact H]. Qed.
Lemma lxor_lt32 a b : a < 2 ^ 32 -> b < 2 ^ 32 -> N.lxor a b < 2 ^ 32.
Proof.
  intros Ha Hb. destruct (N.eq_dec (N.lxor a b) 0) as [->|Hne]; [reflexivity|]. apply N.log2_lt_pow2; [apply N.neq_0_lt_0; exact Hne|].
  pose proof (N.log2_lxor a b). pose proof (log2_lt a 32 eq_refl Ha). pose proof (log2_lt b 32 eq_refl Hb). lia.
Qed.
Lemma b2n_lt (b : bool) : N.b2n b < 2 ^ 32. Proof. destruct b; reflexivity. Qed.
Lemma byte_lt32 v : Byte.to_N v < 2 ^ 32.
Proof. apply N.lt_trans with 256; [apply byte_lt|reflexivity]. Qed.
Lemma shift_lt c : c < 2 ^ 32 -> crc_shift castagnoli c < 2 ^ 32.
Proof.
  intros H. rewrite shift_eq. assert (N.div2 c < 2 ^ 32) by (rewrite N.div2_div; apply N.div_lt_upper_bound; [discriminate|]; change (2 ^ 32) with 4294967296 in *; lia).
  destruct (N.odd c); [|rewrite N.lxor_0_r; assumption]. apply lxor_lt32; [assumption|reflexivity].
Qed.
Lemma bit_lt r b : r < 2 ^ 32 -> crc32c_bit r b < 2 ^ 32.
Proof.
  intros H. rewrite bit_step. apply shift_lt, lxor_lt32; [exact H|apply b2n_lt].
Qed.
Lemma bits_lt bits : forall r, r < 2 ^ 32 -> crc32c_bits r bits < 2 ^ 32.
Proof. induction bits as [|b bits IH]; intros r H; [exact H|]. cbn. apply IH, bit_lt, H. Qed.

Theorem C31_name_hash : forall name,
  NameHash name = Z.of_N (crc32c_bits 0xFFFFFFFE (flat_map byte_bits name)).
Proof. intros name. unfold NameHash, crc_update. rewrite !not32_invol, crc_bytes. reflexivity. Qed.
Theorem C31_fits : forall name, is_u32 (NameHash name).
Proof.
  intros name. rewrite C31_name_hash. unfold is_u32. assert (crc32c_bits 0xFFFFFFFE (flat_map byte_bits name) < 2 ^ 32) by (apply bits_lt; reflexivity).
  split; [apply N2Z.is_nonneg|]. change (2 ^ 32)%Z with (Z.of_N (2 ^ 32)). lia.
Qed.
(** a one-byte change in a name always changes the hash *)
Lemma shift_inj a b : a < 2 ^ 32 -> b < 2 ^ 32 -> crc_shift castagnoli a = crc_shift castagnoli b -> a = b.
Proof.
  intros Ha Hb H. apply N.lxor_eq. assert (E : crc_shift castagnoli (N.lxor a b) = 0) by (rewrite shift_linear, H; apply N.lxor_nilpotent).
  rewrite shift_eq in E. apply N.lxor_eq in E.
  assert (Hd : forall x, x < 2 ^ 32 -> N.testbit x 32 = false).
  { intros x Hx. apply N.bits_above_log2. apply log2_lt; [reflexivity|exact Hx]. }
  assert (T : N.testbit (N.div2 (N.lxor a b)) 31 = false).
  { rewrite N.div2_spec, N.shiftr_spec', N.lxor_spec. change (31 + 1) with 32. rewrite !Hd by assumption. reflexivity. }
  destruct (N.odd (N.lxor a b)) eqn:EO.
  - rewrite E in T. discriminate.
  - rewrite (N.div2_odd (N.lxor a b)), E, EO. reflexivity.
Qed.
Lemma bit_inj r r' b : r < 2 ^ 32 -> r' < 2 ^ 32 -> crc32c_bit r b = crc32c_bit r' b -> r = r'.
Proof.
  intros H H' E. rewrite !bit_step in E.
  assert (HL : forall r, r < 2 ^ 32 -> N.lxor r (N.b2n b) < 2 ^ 32).
  { intros x Hx. apply lxor_lt32; [exact Hx|apply b2n_lt]. }
  apply shift_inj in E; [|apply HL; assumption|apply HL; assumption].
  assert (N.lxor (N.lxor r (N.b2n b)) (N.b2n b) = N.lxor (N.lxor r' (N.b2n b)) (N.b2n b)) as E2 by (rewrite E; reflexivity).
  rewrite !N.lxor_assoc, !N.lxor_nilpotent, !N.lxor_0_r in E2. exact E2.
Qed.
Lemma bits_inj bits : forall r r', r < 2 ^ 32 -> r' < 2 ^ 32 -> crc32c_bits r bits = crc32c_bits r' bits -> r = r'.
Proof.
  induction bits as [|b bits IH]; intros r r' H H' E; [exact E|]. cbn in E. apply IH in E; [|apply bit_lt; assumption|apply bit_lt; assumption].
  exact (bit_inj _ _ _ H H' E).
Qed.
Lemma iter_inj n a b : a < 2 ^ 32 -> b < 2 ^ 32 -> Nat.iter n (crc_shift castagnoli) a = Nat.iter n (crc_shift castagnoli) b -> a = b.
Proof.
  intros Ha Hb. assert (HL : forall m x, x < 2 ^ 32 -> Nat.iter m (crc_shift castagnoli) x < 2 ^ 32).
  { induction m as [|m IHm]; intros x Hx; [exact Hx|]. apply shift_lt, IHm, Hx. }
  induction n as [|n IH]; intros E; [exact E|]. apply IH. apply shift_inj in E; [exact E|apply HL; assumption|apply HL; assumption].
Qed.
Theorem C31_single_byte : forall p q a b, NameHash (p ++ a :: q) = NameHash (p ++ b :: q) -> a = b.
Proof.
  intros p q a b H. rewrite !C31_name_hash, !flat_map_app in H. cbn [flat_map] in H. apply N2Z.inj in H. unfold crc32c_bits in H.
  rewrite !fold_left_app in H. fold (crc32c_bits 0xFFFFFFFE (flat_map byte_bits p)) in H. set (r := crc32c_bits 0xFFFFFFFE (flat_map byte_bits p)) in *.
  assert (Hr : r < 2 ^ 32) by (apply bits_lt; reflexivity). fold (crc32c_bits r (byte_bits a)) in H. fold (crc32c_bits r (byte_bits b)) in H.
  apply bits_inj in H; [|apply bits_lt; exact Hr|apply bits_lt; exact Hr].
  unfold crc32c_bits in H. rewrite !bits_step, !byte_bits_value in H. cbn [byte_bits length] in H.
  assert (HL : forall v, N.lxor r (Byte.to_N v) < 2 ^ 32).
  { intros v. apply lxor_lt32; [exact Hr|apply byte_lt32]. }
  assert (E : N.lxor r (Byte.to_N a) = N.lxor r (Byte.to_N b)) by (apply (iter_inj 8); [apply HL|apply HL|exact H]).
  assert (E2 : N.lxor r (N.lxor r (Byte.to_N a)) = N.lxor r (N.lxor r (Byte.to_N b))) by (rewrite E; reflexivity).
  rewrite <- !N.lxor_assoc, !N.lxor_nilpotent, !N.lxor_0_l in E2.
  pose proof (Byte.of_to_N a) as A. pose proof (Byte.of_to_N b) as B. rewrite E2, B in A. injection A as ->. reflexivity.
Qed.
(** the hash of "foo" and of the empty name *)
Example C31_ex : NameHash [x66; x6f; x6f] = Z.of_N (crc32c_bits 0xFFFFFFFE (flat_map byte_bits [x66; x6f; x6f])) /\ NameHash [] = 0xFFFFFFFE%Z.
Proof. split; vm_compute; reflexivity. Qed.
(** the specification with the usual seed and final inversion gives the published
    CRC-32C check value of "123456789" *)
Example C31_check_value : not32 (crc32c_bits 0xFFFFFFFF (flat_map byte_bits [x31; x32; x33; x34; x35; x36; x37; x38; x39])) = 0xE3069283.
Proof. vm_compute. reflexivity. Qed.
Print Assumptions C31_name_hash. Print Assumptions C31_fits. Print Assumptions C31_single_byte.

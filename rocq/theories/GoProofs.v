(** Basic facts about Go.v: bytes, endian codecs, byte string order, slices. *)
From Verif Require Import Go.
From Coq Require Import ZifyBool ZifyNat ZifyN.
Ltac Zify.zify_post_hook ::= Z.div_mod_to_equations.

(** ** zlen *)
Lemma zlen_nil {A} : zlen (@nil A) = 0. Proof. reflexivity. Qed.
Lemma zlen_cons {A} (x : A) l : zlen (x :: l) = 1 + zlen l.
Proof. unfold zlen; cbn [length]; lia. Qed.
Lemma zlen_app {A} (a b : list A) : zlen (a ++ b) = zlen a + zlen b.
Proof. unfold zlen; rewrite app_length; lia. Qed.
Lemma zlen_nonneg {A} (l : list A) : 0 <= zlen l.
Proof. unfold zlen; lia. Qed.
Lemma zlen_rev {A} (l : list A) : zlen (rev l) = zlen l.
Proof. unfold zlen; rewrite rev_length; reflexivity. Qed.
Lemma zlen_map {A B} (f : A -> B) l : zlen (map f l) = zlen l.
Proof. unfold zlen; rewrite map_length; reflexivity. Qed.
Lemma zlen_firstn {A} (l : list A) n : 0 <= n <= zlen l -> zlen (firstn (Z.to_nat n) l) = n.
Proof. unfold zlen; intros H; rewrite firstn_length; lia. Qed.
Lemma zlen_skipn {A} (l : list A) n : 0 <= n <= zlen l -> zlen (skipn (Z.to_nat n) l) = zlen l - n.
Proof. unfold zlen; intros H; rewrite skipn_length; lia. Qed.
Lemma zlen_repeat {A} (x : A) n : zlen (repeat x n) = Z.of_nat n.
Proof. unfold zlen; rewrite repeat_length; reflexivity. Qed.
Lemma zlen_0_nil {A} (l : list A) : zlen l = 0 -> l = [].
Proof. destruct l; unfold zlen; cbn; [reflexivity | lia]. Qed.

(** ** bytes *)
Lemma bz_range b : 0 <= bz b < 256.
Proof. unfold bz. pose proof (Byte.to_N_bounded b). lia. Qed.
Lemma zb_bz b : zb (bz b) = b.
Proof.
  unfold zb. pose proof (bz_range b) as H. rewrite Z.mod_small by lia.
  unfold bz. rewrite N2Z.id, Byte.of_to_N. reflexivity.
Qed.
Lemma bz_zb x : bz (zb x) = x mod 256.
Proof.
  unfold zb. destruct (Byte.of_N (Z.to_N (x mod 256))) as [b|] eqn:E.
  - apply Byte.to_of_N in E. unfold bz. rewrite E. rewrite Z2N.id; [reflexivity|].
    apply Z.mod_pos_bound; lia.
  - exfalso. apply Byte.of_N_None_iff in E.
    assert (0 <= x mod 256 < 256) by (apply Z.mod_pos_bound; lia).
    apply N2Z.inj_lt in E. rewrite Z2N.id in E; lia.
Qed.
Lemma bz_zb_small x : 0 <= x < 256 -> bz (zb x) = x.
Proof. intros H; rewrite bz_zb, Z.mod_small; lia. Qed.
Lemma bz_inj a b : bz a = bz b -> a = b.
Proof. intros H. rewrite <- (zb_bz a), <- (zb_bz b), H. reflexivity. Qed.
Lemma beqb_eq a b : beqb a b = true <-> a = b.
Proof. unfold beqb; rewrite Z.eqb_eq; split; [apply bz_inj | intros ->; reflexivity]. Qed.

(** ** little endian *)
Lemma le_encode_length n v : length (le_encode n v) = n.
Proof. revert v; induction n as [|n IH]; intros v; cbn; [|rewrite IH]; reflexivity. Qed.
Lemma zlen_le_encode n v : zlen (le_encode n v) = Z.of_nat n.
Proof. unfold zlen; rewrite le_encode_length; reflexivity. Qed.
Lemma le_decode_range l : 0 <= le_decode l < 256 ^ zlen l.
Proof.
  induction l as [|b l IH]; cbn [le_decode].
  - cbn; lia.
  - rewrite zlen_cons. pose proof (bz_range b). pose proof (zlen_nonneg l).
    rewrite Z.pow_add_r by lia. change (256^1) with 256. nia.
Qed.
Lemma le_decode_encode n v : 0 <= v < 256 ^ (Z.of_nat n) -> le_decode (le_encode n v) = v.
Proof.
  revert v; induction n as [|n IH]; intros v Hv.
  - cbn in *; lia.
  - cbn [le_encode le_decode]. rewrite bz_zb, IH.
    + pose proof (Z.div_mod v 256 ltac:(lia)). lia.
    + rewrite Nat2Z.inj_succ, Z.pow_succ_r in Hv by lia. split.
      * apply Z.div_pos; lia.
      * apply Z.div_lt_upper_bound; lia.
Qed.
Lemma le_encode_decode l : le_encode (length l) (le_decode l) = l.
Proof.
  induction l as [|b l IH]; [reflexivity|]. cbn [length le_encode le_decode].
  pose proof (bz_range b). f_equal.
  - apply bz_inj. rewrite bz_zb. rewrite (Z.mul_comm 256), Z_mod_plus_full. apply Z.mod_small; lia.
  - replace ((bz b + 256 * le_decode l) / 256) with (le_decode l); [exact IH|].
    rewrite (Z.mul_comm 256), Z_div_plus_full by lia. rewrite Z.div_small; lia.
Qed.
Lemma le_decode_app a b : le_decode (a ++ b) = le_decode a + 256 ^ zlen a * le_decode b.
Proof.
  induction a as [|x a IH]; cbn [app le_decode].
  - change (256 ^ zlen (@nil byte)) with 1. lia.
  - rewrite IH, zlen_cons, Z.pow_add_r by (pose proof (zlen_nonneg a); lia).
    change (256^1) with 256. ring.
Qed.
Lemma le_decode_inj a b : length a = length b -> le_decode a = le_decode b -> a = b.
Proof.
  intros HL HD. rewrite <- (le_encode_decode a), <- (le_encode_decode b), HL, HD. reflexivity.
Qed.

(** ** big endian *)
Lemma be_encode_length n v : length (be_encode n v) = n.
Proof. unfold be_encode; rewrite rev_length, le_encode_length; reflexivity. Qed.
Lemma zlen_be_encode n v : zlen (be_encode n v) = Z.of_nat n.
Proof. unfold zlen; rewrite be_encode_length; reflexivity. Qed.
Lemma be_decode_encode n v : 0 <= v < 256 ^ (Z.of_nat n) -> be_decode (be_encode n v) = v.
Proof. intros H. unfold be_decode, be_encode. rewrite rev_involutive. apply le_decode_encode; exact H. Qed.
Lemma be_encode_decode l : be_encode (length l) (be_decode l) = l.
Proof.
  unfold be_decode, be_encode. rewrite <- (rev_length l), le_encode_decode, rev_involutive. reflexivity.
Qed.
Lemma be_decode_range l : 0 <= be_decode l < 256 ^ zlen l.
Proof. unfold be_decode. rewrite <- zlen_rev. apply le_decode_range. Qed.
Lemma be_decode_app a b : be_decode (a ++ b) = be_decode a * 256 ^ zlen b + be_decode b.
Proof. unfold be_decode. rewrite rev_app_distr, le_decode_app, zlen_rev. ring. Qed.
Lemma be_decode_cons x b : be_decode (x :: b) = bz x * 256 ^ zlen b + be_decode b.
Proof. change (x :: b) with ([x] ++ b). rewrite be_decode_app. cbn. ring. Qed.
Lemma be_decode_nil : be_decode [] = 0. Proof. reflexivity. Qed.
Lemma be_decode_inj a b : length a = length b -> be_decode a = be_decode b -> a = b.
Proof.
  intros HL HD. rewrite <- (be_encode_decode a), <- (be_encode_decode b), HL, HD. reflexivity.
Qed.

(** ** byte string order *)
Lemma bytes_cmp_be a b : length a = length b ->
  bytes_cmp a b = Z.compare (be_decode a) (be_decode b).
Proof.
  revert b; induction a as [|x a IH]; intros [|y b] HL; cbn [length] in HL; try lia.
  - reflexivity.
  - cbn [bytes_cmp]. rewrite !be_decode_cons.
    assert (HL' : length a = length b) by lia.
    assert (HZ : zlen a = zlen b) by (unfold zlen; lia).
    pose proof (be_decode_range a) as Ra. pose proof (be_decode_range b) as Rb.
    rewrite HZ in *.
    destruct (Z.compare_spec (bz x) (bz y)) as [E|E|E].
    + rewrite IH, E by exact HL'.
      destruct (Z.compare_spec (be_decode a) (be_decode b));
      symmetry; [apply Z.compare_eq_iff | apply Z.compare_lt_iff | apply Z.compare_gt_iff]; lia.
    + symmetry. apply Z.compare_lt_iff. nia.
    + symmetry. apply Z.compare_gt_iff. nia.
Qed.
Lemma bytes_cmp_eq a b : bytes_cmp a b = Eq <-> a = b.
Proof.
  revert b; induction a as [|x a IH]; intros [|y b]; cbn; split; intros H; try congruence.
  - destruct (Z.compare_spec (bz x) (bz y)) as [E|E|E]; try congruence.
    apply bz_inj in E; subst. apply IH in H; subst; reflexivity.
  - injection H as -> ->. rewrite Z.compare_refl. apply IH; reflexivity.
Qed.
Lemma bytes_eqb_eq a b : bytes_eqb a b = true <-> a = b.
Proof.
  unfold bytes_eqb. rewrite <- bytes_cmp_eq. destruct (bytes_cmp a b); split; congruence.
Qed.
Lemma bytes_eqb_refl a : bytes_eqb a a = true.
Proof. apply bytes_eqb_eq; reflexivity. Qed.
Lemma bytes_eqb_neq a b : bytes_eqb a b = false <-> a <> b.
Proof.
  rewrite <- bytes_eqb_eq. destruct (bytes_eqb a b); split; congruence.
Qed.
Lemma bytes_cmp_antisym a b : bytes_cmp b a = CompOpp (bytes_cmp a b).
Proof.
  revert b; induction a as [|x a IH]; intros [|y b]; cbn; try reflexivity.
  rewrite (Z.compare_antisym (bz x) (bz y)).
  destruct (Z.compare (bz x) (bz y)); cbn; [apply IH| |]; reflexivity.
Qed.
Lemma bytes_cmp_lt_trans a b c : bytes_cmp a b = Lt -> bytes_cmp b c = Lt -> bytes_cmp a c = Lt.
Proof.
  revert b c; induction a as [|x a IH]; intros [|y b] [|z c]; cbn; try congruence.
  destruct (Z.compare_spec (bz x) (bz y)) as [E|E|E]; try congruence;
  destruct (Z.compare_spec (bz y) (bz z)) as [F|F|F]; try congruence; intros H1 H2.
  - rewrite E, F, Z.compare_refl. eauto.
  - rewrite E. apply Z.compare_lt_iff in F; rewrite F; reflexivity.
  - rewrite <- F. apply Z.compare_lt_iff in E; rewrite E; reflexivity.
  - assert (G : bz x < bz z) by lia. apply Z.compare_lt_iff in G; rewrite G; reflexivity.
Qed.

(** ** slices *)
Lemma sl_wf l : slice_wf (sl l).
Proof. unfold slice_wf, sl; cbn. pose proof (zlen_nonneg l); lia. Qed.
Lemma sbytes_sl l : sbytes (sl l) = l.
Proof. unfold sbytes, sl; cbn. unfold zlen. rewrite Nat2Z.id. apply firstn_all. Qed.
Lemma scap_sl l : scap (sl l) = zlen l. Proof. reflexivity. Qed.
Lemma zlen_sbytes s : slice_wf s -> zlen (sbytes s) = s_len s.
Proof. intros H. unfold sbytes. apply zlen_firstn. exact H. Qed.

Lemma go_slice_ok s lo hi : 0 <= lo <= hi -> hi <= scap s ->
  go_slice s lo hi = Ok (mkSlice (skipn (Z.to_nat lo) (s_arr s)) (hi - lo)).
Proof.
  intros H1 H2. unfold go_slice.
  replace (_ && _ && _) with true; [reflexivity|]. symmetry.
  rewrite !andb_true_iff, !Z.leb_le. lia.
Qed.
Lemma go_slice_panic s lo hi : ~ (0 <= lo <= hi /\ hi <= scap s) -> go_slice s lo hi = Panic.
Proof.
  intros H. unfold go_slice.
  replace (_ && _ && _) with false; [reflexivity|]. symmetry.
  rewrite !andb_false_iff, !Z.leb_gt. lia.
Qed.
Lemma go_slice_inv s lo hi r : go_slice s lo hi = Ok r ->
  0 <= lo <= hi /\ hi <= scap s /\ r = mkSlice (skipn (Z.to_nat lo) (s_arr s)) (hi - lo).
Proof.
  unfold go_slice. destruct (_ && _ && _) eqn:E; [|discriminate].
  rewrite !andb_true_iff, !Z.leb_le in E. intros [= <-]. repeat split; lia.
Qed.
Lemma go_slice_no_timeout s lo hi : go_slice s lo hi <> Timeout.
Proof. unfold go_slice. destruct (_ && _ && _); discriminate. Qed.
Lemma go_slice_wf s lo hi r : go_slice s lo hi = Ok r -> slice_wf r.
Proof.
  intros H. apply go_slice_inv in H as (H1 & H2 & ->). unfold slice_wf; cbn.
  unfold scap in H2. rewrite zlen_skipn by (pose proof (zlen_nonneg (s_arr s)); lia). lia.
Qed.
Lemma go_slice_bytes s lo hi r : slice_wf s -> hi <= s_len s -> go_slice s lo hi = Ok r ->
  sbytes r = firstn (Z.to_nat (hi - lo)) (skipn (Z.to_nat lo) (sbytes s)).
Proof.
  intros Hwf Hh H. apply go_slice_inv in H as (H1 & H2 & ->). unfold sbytes; cbn [s_arr s_len].
  rewrite !firstn_skipn_comm, firstn_firstn. do 2 f_equal. lia.
Qed.
Lemma go_index_ok s i : 0 <= i < s_len s -> go_index s i = Ok (bz (nth (Z.to_nat i) (s_arr s) x00)).
Proof.
  intros H. unfold go_index. replace (_ && _) with true; [reflexivity|]. symmetry.
  rewrite andb_true_iff, Z.leb_le, Z.ltb_lt. lia.
Qed.
Lemma go_index_panic s i : ~ (0 <= i < s_len s) -> go_index s i = Panic.
Proof.
  intros H. unfold go_index. replace (_ && _) with false; [reflexivity|]. symmetry.
  rewrite andb_false_iff, Z.leb_gt, Z.ltb_ge. lia.
Qed.

Lemma rbind_ok {A B} (m : Res A) (f : A -> Res B) b :
  rbind m f = Ok b -> exists a, m = Ok a /\ f a = Ok b.
Proof. destruct m; cbn; try discriminate. eauto. Qed.

(** ** fixed width *)
Lemma u8_range x : is_u8 (u8 x). Proof. unfold is_u8, u8; apply Z.mod_pos_bound; lia. Qed.
Lemma u16_range x : is_u16 (u16 x). Proof. unfold is_u16, u16; apply Z.mod_pos_bound; lia. Qed.
Lemma u32_range x : is_u32 (u32 x). Proof. unfold is_u32, u32; apply Z.mod_pos_bound; lia. Qed.
Lemma u64_range x : is_u64 (u64 x). Proof. unfold is_u64, u64; apply Z.mod_pos_bound; lia. Qed.
Lemma u16_small x : is_u16 x -> u16 x = x. Proof. unfold is_u16, u16; intros; apply Z.mod_small; lia. Qed.
Lemma u32_small x : is_u32 x -> u32 x = x. Proof. unfold is_u32, u32; intros; apply Z.mod_small; lia. Qed.
Lemma u64_small x : is_u64 x -> u64 x = x. Proof. unfold is_u64, u64; intros; apply Z.mod_small; lia. Qed.
Lemma i64_small x : 0 <= x < 2^63 -> i64 x = x.
Proof. intros H. unfold i64. rewrite Z.mod_small; lia. Qed.
Lemma i64_range x : - 2^63 <= i64 x < 2^63.
Proof. unfold i64. assert (0 <= (x + 2^63) mod 2^64 < 2^64) by (apply Z.mod_pos_bound; lia). lia. Qed.

(** ** list helpers missing from the 8.16 standard library *)
Lemma skipn_skipn' {A} (l : list A) x y : skipn x (skipn y l) = skipn (y + x) l.
Proof. revert l; induction y as [|y IH]; intros l; [reflexivity|]. destruct l; cbn; [apply skipn_nil|apply IH]. Qed.
Lemma nth_skipn' {A} (l : list A) n i d : nth i (skipn n l) d = nth (n + i) l d.
Proof. revert l; induction n as [|n IH]; intros l; [reflexivity|]. destruct l; cbn; [destruct i; reflexivity|apply IH]. Qed.
Lemma nth_firstn' {A} (l : list A) n i d : (i < n)%nat -> nth i (firstn n l) d = nth i l d.
Proof.
  revert l i; induction n as [|n IH]; intros l i H; [lia|]. destruct l; [destruct i; reflexivity|].
  destruct i; cbn; [reflexivity|apply IH; lia].
Qed.

(** Property theorem C43: the sample offsets of the identify command. *)
From Verif Require Import Go GoProofs Layout LayoutProofs IoUtil PropsIo Identify PropsIdentify.
From Coq Require Import ZifyBool ZifyNat Sorting.Sorted Lia.
Ltac Zify.zify_post_hook ::= Z.div_mod_to_equations.

(** ** specification *)
(** the block of size bs at offset o lies inside a device of this size *)
Definition inside (size bs o : Z) : Prop := 0 <= o /\ o + bs <= size.
(** the fixed samples: 100 blocks from each superblock copy on, the later ones
    starting some blocks after it; a fourth group if the device has 1 PiB *)
Definition fixed (size bs o : Z) : Prop := exists i, 0 <= i < 100 /\
  (o = 65536 + i * bs \/ o = 64 * 2^20 + (i + 100) * bs \/
   256 * 2^30 <= size /\ o = 256 * 2^30 + (i + 200) * bs \/
   2^50 <= size /\ o = 256 * 2^30 + (i + 300) * bs).
Definition fixed_count (size : Z) : Z := if 2^50 <=? size then 400 else if 256 * 2^30 <=? size then 300 else 200.
(** a whole block counted from the start of the device *)
Definition aligned_block (size bs o : Z) : Prop := exists b, 0 <= b < size / bs /\ o = b * bs.
(** what rand.Int63n(size / bs) may return, draw by draw *)
Definition draws (size bs : Z) (rnd : nat -> Z) : Prop := forall k, 0 <= rnd k < size / bs.
(** devices accepted by the size check, with block sizes up to 4 GiB *)
Definition accepted (size bs : Z) : Prop := 0 < bs <= 2^32 /\ 64 * 2^20 + 100 * bs <= size /\ size < 2^63.

(** ** sets *)
Lemma set_add_In x s y : In y (set_add x s) <-> y = x \/ In y s.
Proof.
  unfold set_add. destruct (existsb (Z.eqb x) s) eqn:E; cbn; [|intuition].
  apply existsb_exists in E as (z & Hz & E). apply Z.eqb_eq in E. subst. intuition; subst; auto.
Qed.
Lemma set_add_NoDup x s : NoDup s -> NoDup (set_add x s).
Proof.
  intros D. unfold set_add. destruct (existsb (Z.eqb x) s) eqn:E; [assumption|]. constructor; [|assumption].
  intros H. assert (existsb (Z.eqb x) s = true) by (apply existsb_exists; exists x; split; [assumption|lia]). congruence.
Qed.
Lemma set_add_new x s : ~ In x s -> zlen (set_add x s) = zlen s + 1.
Proof.
  intros H. unfold set_add. destruct (existsb (Z.eqb x) s) eqn:E; [|rewrite zlen_cons; lia].
  apply existsb_exists in E as (z & Hz & E). apply Z.eqb_eq in E. subst. contradiction.
Qed.
Lemma set_add_len x s : zlen s <= zlen (set_add x s) <= zlen s + 1.
Proof. unfold set_add. destruct (existsb _ s); rewrite ?zlen_cons; lia. Qed.
Lemma vic_In f n : forall i s y, In y (add_vicinity f n i s) <-> In y s \/ exists j, i <= j < i + Z.of_nat n /\ y = f j.
Proof.
  induction n as [|n IH]; intros i s y; cbn [add_vicinity].
  - split; [auto|]. intros [H|(j & H & _)]; [assumption|lia].
  - rewrite IH, set_add_In. split.
    + intros [[->|H]|(j & H & ->)]; [right; exists i; split; [lia|reflexivity]|auto|right; exists j; split; [lia|reflexivity]].
    + intros [H|(j & H & ->)]; [auto|]. destruct (Z.eq_dec j i) as [->|]; [auto|]. right. exists j. split; [lia|reflexivity].
Qed.
Lemma vic_NoDup f n : forall i s, NoDup s -> NoDup (add_vicinity f n i s).
Proof. induction n as [|n IH]; intros i s D; cbn [add_vicinity]; [assumption|]. apply IH, set_add_NoDup, D. Qed.
Lemma vic_len f n : forall i s, (forall j, i <= j < i + Z.of_nat n -> ~ In (f j) s) ->
  (forall j k, i <= j < i + Z.of_nat n -> i <= k < i + Z.of_nat n -> f j = f k -> j = k) ->
  zlen (add_vicinity f n i s) = zlen s + Z.of_nat n.
Proof.
  induction n as [|n IH]; intros i s Hn Hi; cbn [add_vicinity]; [lia|]. rewrite IH.
  - rewrite set_add_new; [lia|]. apply Hn. lia.
  - intros j Hj. rewrite set_add_In. intros [E|H]; [|revert H; apply Hn; lia]. assert (j = i) by (apply Hi; [lia..|assumption]). lia.
  - intros j k Hj Hk. apply Hi; lia.
Qed.
Lemma vic2_In f g n : forall i s y, In y (add_vicinity2 f g n i s) <-> In y s \/ exists j, i <= j < i + Z.of_nat n /\ (y = f j \/ y = g j).
Proof.
  induction n as [|n IH]; intros i s y; cbn [add_vicinity2].
  - split; [auto|]. intros [H|(j & H & _)]; [assumption|lia].
  - rewrite IH, !set_add_In. split.
    + intros [[->|[->|H]]|(j & H & E)]; [right; exists i; split; [lia|auto]|right; exists i; split; [lia|auto]|auto|right; exists j; split; [lia|assumption]].
    + intros [H|(j & H & E)]; [auto|]. destruct (Z.eq_dec j i) as [->|]; [destruct E as [->| ->]; auto|]. right. exists j. split; [lia|assumption].
Qed.
Lemma vic2_NoDup f g n : forall i s, NoDup s -> NoDup (add_vicinity2 f g n i s).
Proof. induction n as [|n IH]; intros i s D; cbn [add_vicinity2]; [assumption|]. apply IH, set_add_NoDup, set_add_NoDup, D. Qed.
Lemma vic2_len f g n : forall i s, (forall j, i <= j < i + Z.of_nat n -> ~ In (f j) s /\ ~ In (g j) s) ->
  (forall j k, i <= j < i + Z.of_nat n -> i <= k < i + Z.of_nat n -> (f j = f k -> j = k) /\ (g j = g k -> j = k) /\ f j <> g k) ->
  zlen (add_vicinity2 f g n i s) = zlen s + 2 * Z.of_nat n.
Proof.
  induction n as [|n IH]; intros i s Hn Hi; cbn [add_vicinity2]; [lia|]. rewrite IH.
  - rewrite !set_add_new; [lia|apply Hn; lia|]. rewrite set_add_In. intros [E|H]; [|revert H; apply Hn; lia].
    destruct (Hi i i ltac:(lia) ltac:(lia)) as (_ & _ & K). congruence.
  - intros j Hj. rewrite !set_add_In. destruct (Hn j ltac:(lia)) as (N1 & N2).
    destruct (Hi j i ltac:(lia) ltac:(lia)) as (K1 & K2 & K3). destruct (Hi i j ltac:(lia) ltac:(lia)) as (_ & _ & K3').
    split; intros [E|[E|H]]; try contradiction; try congruence.
    + apply K1 in E. lia.
    + apply K2 in E. lia.
  - intros j k Hj Hk. apply Hi; lia.
Qed.

(** ** the fixed part *)
Lemma u64_id x : 0 <= x < 2^64 -> u64 x = x.
Proof. intros. unfold u64. apply Z.mod_small. assumption. Qed.
Lemma fixed_ok size bs : 0 < bs <= 2^32 ->
  NoDup (fixed_samples size bs) /\ zlen (fixed_samples size bs) = fixed_count size /\
  forall o, In o (fixed_samples size bs) <-> fixed size bs o.
Proof.
  intros Hb.
  set (f1 := fun i => u64 (SuperInfoOffset + u64 (i * bs))). set (f2 := fun i => u64 (SuperInfoOffset2 + u64 ((i + 100) * bs))).
  set (f3 := fun i => u64 (SuperInfoOffset3 + u64 ((i + 200) * bs))). set (f4 := fun i => u64 (SuperInfoOffset3 + u64 ((i + 300) * bs))).
  assert (B : forall i, 0 <= i < 100 -> 0 <= i * bs <= 99 * 2^32) by (intros; nia).
  assert (E1 : forall i, 0 <= i < 100 -> f1 i = 65536 + i * bs).
  { intros i Hi. specialize (B i Hi). unfold f1. change SuperInfoOffset with 65536. rewrite !u64_id by (rewrite ?u64_id; lia). reflexivity. }
  assert (E2 : forall i, 0 <= i < 100 -> f2 i = 64 * 2^20 + (i + 100) * bs).
  { intros i Hi. specialize (B i Hi). unfold f2. change SuperInfoOffset2 with (64 * 2^20).
    replace ((i + 100) * bs) with (i * bs + 100 * bs) by lia. rewrite !u64_id by (rewrite ?u64_id; lia). lia. }
  assert (E3 : forall i, 0 <= i < 100 -> f3 i = 256 * 2^30 + (i + 200) * bs).
  { intros i Hi. specialize (B i Hi). unfold f3. change SuperInfoOffset3 with (256 * 2^30).
    replace ((i + 200) * bs) with (i * bs + 200 * bs) by lia. rewrite !u64_id by (rewrite ?u64_id; lia). lia. }
  assert (E4 : forall i, 0 <= i < 100 -> f4 i = 256 * 2^30 + (i + 300) * bs).
  { intros i Hi. specialize (B i Hi). unfold f4. change SuperInfoOffset3 with (256 * 2^30).
    replace ((i + 300) * bs) with (i * bs + 300 * bs) by lia. rewrite !u64_id by (rewrite ?u64_id; lia). lia. }
  set (s12 := add_vicinity2 f1 f2 100 0 []). set (s3 := add_vicinity f3 100 0 s12). set (s4 := add_vicinity f4 100 0 s3).
  assert (D12 : NoDup s12) by (apply vic2_NoDup; constructor).
  assert (I12 : forall o, In o s12 <-> exists i, 0 <= i < 100 /\ (o = 65536 + i * bs \/ o = 64 * 2^20 + (i + 100) * bs)).
  { intros o. unfold s12. rewrite vic2_In. cbn [In]. change (0 + Z.of_nat 100) with 100.
    split; [intros [[]|(j & Hj & E)]|intros (j & Hj & E); right]; exists j; (split; [assumption|]); rewrite E1, E2 in * by assumption; assumption. }
  assert (L12 : zlen s12 = 200).
  { unfold s12. rewrite vic2_len; [reflexivity|intros; cbn; tauto|]. change (0 + Z.of_nat 100) with 100. intros j k Hj Hk. rewrite !E1, !E2 by assumption.
    repeat split; intros; nia. }
  assert (I3 : forall o, In o s3 <-> In o s12 \/ exists i, 0 <= i < 100 /\ o = 256 * 2^30 + (i + 200) * bs).
  { intros o. unfold s3. rewrite vic_In. change (0 + Z.of_nat 100) with 100. apply or_iff_compat_l.
    split; intros (j & Hj & E); exists j; (split; [assumption|]); rewrite E3 in * by assumption; assumption. }
  assert (L3 : zlen s3 = 300).
  { unfold s3. rewrite vic_len; [rewrite L12; reflexivity| |]; change (0 + Z.of_nat 100) with 100.
    - intros j Hj. rewrite E3, I12 by assumption. intros (i & Hi & [E|E]); nia.
    - intros j k Hj Hk. rewrite !E3 by assumption. nia. }
  assert (I4 : forall o, In o s4 <-> In o s3 \/ exists i, 0 <= i < 100 /\ o = 256 * 2^30 + (i + 300) * bs).
  { intros o. unfold s4. rewrite vic_In. change (0 + Z.of_nat 100) with 100. apply or_iff_compat_l.
    split; intros (j & Hj & E); exists j; (split; [assumption|]); rewrite E4 in * by assumption; assumption. }
  assert (L4 : zlen s4 = 400).
  { unfold s4. rewrite vic_len; [rewrite L3; reflexivity| |]; change (0 + Z.of_nat 100) with 100.
    - intros j Hj. rewrite E4, I3, I12 by assumption. intros [(i & Hi & [E|E])|(i & Hi & E)]; nia.
    - intros j k Hj Hk. rewrite !E4 by assumption. nia. }
  assert (EF : fixed_samples size bs = if 256 * 2^30 <=? size then if 2^50 <=? size then s4 else s3 else s12) by reflexivity.
  rewrite EF. unfold fixed_count, fixed. clear EF.
  destruct (256 * 2^30 <=? size) eqn:C3; [destruct (2^50 <=? size) eqn:C4|replace (2^50 <=? size) with false by lia].
  - split; [apply vic_NoDup, vic_NoDup, D12|]. split; [assumption|]. intros o. rewrite I4, I3, I12. split.
    + intros [[(i & Hi & E)|(i & Hi & E)]|(i & Hi & E)]; exists i; (split; [assumption|]); intuition lia.
    + intros (i & Hi & [E|[E|[[_ E]|[_ E]]]]); [left; left|left; left|left; right|right]; exists i; auto.
  - split; [apply vic_NoDup, D12|]. split; [assumption|]. intros o. rewrite I3, I12. split.
    + intros [(i & Hi & E)|(i & Hi & E)]; exists i; (split; [assumption|]); intuition lia.
    + intros (i & Hi & [E|[E|[[_ E]|[K E]]]]); [left|left|right|lia]; exists i; auto.
  - split; [assumption|]. split; [assumption|]. intros o. rewrite I12. split.
    + intros (i & Hi & E); exists i; (split; [assumption|]); intuition lia.
    + intros (i & Hi & [E|[E|[[K E]|[K E]]]]); [| |lia..]; exists i; auto.
Qed.

(** ** the random part *)
Lemma aligned_inside size bs o : 0 < bs -> 0 <= size -> aligned_block size bs o -> inside size bs o.
Proof. intros Hb Hs (b & Hb' & ->). unfold inside. assert (bs * (size / bs) <= size) by (apply Z.mul_div_le; lia). nia. Qed.
Lemma draw_offset size bs rnd k : 0 < bs -> 0 <= size < 2^63 -> draws size bs rnd ->
  u64 (rnd k * bs) = rnd k * bs /\ aligned_block size bs (rnd k * bs).
Proof.
  intros Hb Hs Hd. specialize (Hd k). assert (A : aligned_block size bs (rnd k * bs)) by (exists (rnd k); auto). split; [|exact A].
  apply aligned_inside in A; [|lia..]. unfold inside in A. apply u64_id. lia.
Qed.
Lemma random_ok size bs rnd n : 0 < bs -> 0 <= size < 2^63 -> draws size bs rnd -> forall fuel k s s',
  NoDup s -> zlen s <= n -> random_samples fuel rnd k bs n s = Ok s' ->
  NoDup s' /\ zlen s' = n /\ (forall o, In o s -> In o s') /\ (forall o, In o s' -> In o s \/ aligned_block size bs o).
Proof.
  intros Hb Hs Hd. induction fuel as [|fuel IH]; intros k s s' D L H; cbn [random_samples] in H.
  - destruct (zlen s <? n) eqn:E; [discriminate|]. injection H as <-. repeat split; [assumption|lia|auto|auto].
  - destruct (zlen s <? n) eqn:E; [|injection H as <-; repeat split; [assumption|lia|auto|auto]].
    destruct (draw_offset size bs rnd k Hb Hs Hd) as (Eo & A). rewrite Eo in H.
    pose proof (set_add_len (rnd k * bs) s).
    apply IH in H as (H1 & H2 & H3 & H4); [|apply set_add_NoDup, D|lia].
    repeat split; [assumption|assumption| |].
    + intros o Ho. apply H3. rewrite set_add_In. auto.
    + intros o Ho. destruct (H4 o Ho) as [Hi|]; [|auto]. apply set_add_In in Hi as [->|]; auto.
Qed.
(** without enough distinct offsets the loop never ends *)
Lemma random_stuck size bs rnd n (avail : list Z) : 0 < bs -> 0 <= size < 2^63 -> draws size bs rnd ->
  (forall o, aligned_block size bs o -> In o avail) -> zlen avail < n -> forall fuel k s,
  NoDup s -> (forall o, In o s -> In o avail) -> random_samples fuel rnd k bs n s = Timeout.
Proof.
  intros Hb Hs Hd Ha Hn. induction fuel as [|fuel IH]; intros k s D I; cbn [random_samples].
  all: assert (Ls : zlen s <= zlen avail) by (unfold zlen; pose proof (NoDup_incl_length D I); lia).
  all: replace (zlen s <? n) with true by lia.
  { reflexivity. }
  apply IH; [apply set_add_NoDup, D|].
  destruct (draw_offset size bs rnd k Hb Hs Hd) as (Eo & A). rewrite Eo. intros o Ho. apply set_add_In in Ho as [->|]; auto.
Qed.
(** if every block is drawn at some time, the loop ends *)
Lemma random_fair size bs rnd n (avail : list Z) : 0 < bs -> 0 <= size < 2^63 -> draws size bs rnd ->
  NoDup avail -> n <= zlen avail -> forall K k s,
  (forall o, In o avail -> In o s \/ exists j, (k <= j < k + K)%nat /\ o = rnd j * bs) ->
  NoDup s -> exists s', random_samples K rnd k bs n s = Ok s'.
Proof.
  intros Hb Hs Hd Da Hn. induction K as [|K IH]; intros k s Ha D; cbn [random_samples].
  - destruct (zlen s <? n) eqn:E; [|eauto].
    assert (I : incl avail s) by (intros o Ho; destruct (Ha o Ho) as [|(j & Hj & _)]; [assumption|lia]).
    pose proof (NoDup_incl_length Da I). unfold zlen in *. lia.
  - destruct (zlen s <? n) eqn:E; [|eauto]. apply IH; [|apply set_add_NoDup, D].
    destruct (draw_offset size bs rnd k Hb Hs Hd) as (Eo & A). rewrite Eo.
    intros o Ho. rewrite set_add_In. destruct (Ha o Ho) as [|(j & Hj & ->)]; [auto|].
    destruct (Nat.eq_dec j k) as [->|]; [auto|]. right. exists j. split; [lia|reflexivity].
Qed.

(** ** sorting *)
Lemma ins_sorted_Z x s : StronglySorted Z.lt s -> ~ In x s -> StronglySorted Z.lt (ins_sorted Z.ltb x s).
Proof.
  induction s as [|y r IH]; intros S N; cbn [ins_sorted]; [repeat constructor|].
  inversion S as [|? ? Sr Fr]; subst. cbn [In] in N. destruct (y <? x) eqn:E.
  - constructor; [apply IH; tauto|]. rewrite Forall_forall in *. intros z Hz.
    assert (Hz' : In z (x :: r)).
    { clear - Hz. induction r as [|w r IH]; cbn in *; [tauto|]. destruct (w <? x); cbn in *; [|tauto]. destruct Hz as [->|H]; [auto|]. destruct (IH H) as [->|]; auto. }
    destruct Hz' as [<-|Hz']; [lia|auto].
  - constructor; [assumption|]. rewrite Forall_forall in *. intros z [<-|Hz]; [lia|]. specialize (Fr z Hz). lia.
Qed.
Lemma sort_Z s : NoDup s -> StronglySorted Z.lt (sort_by Z.ltb s).
Proof.
  induction s as [|x s IH]; intros D; [constructor|]. inversion D as [|? ? N D']; subst.
  change (sort_by Z.ltb (x :: s)) with (ins_sorted Z.ltb x (sort_by Z.ltb s)). apply ins_sorted_Z; [auto|].
  intros H. apply N. eapply Permutation_in; [apply sort_by_perm|exact H].
Qed.

(** *** C43, what holds: if the list is returned it has the requested length, is
    strictly ascending, contains every fixed sample and otherwise only whole
    blocks; and everything lies inside the device if that is slightly larger
    than the size check demands. *)
Theorem C43_samples_partial fuel rnd size bs n l : accepted size bs -> draws size bs rnd ->
  MakeSampleOffsets fuel rnd size bs n = Ok l ->
  zlen l = n /\ StronglySorted Z.lt l /\
  (forall o, fixed size bs o -> In o l) /\
  (forall o, In o l -> fixed size bs o \/ aligned_block size bs o) /\
  (64 * 2^20 + 200 * bs <= size -> (256 * 2^30 <= size -> 256 * 2^30 + 300 * bs <= size) ->
   forall o, In o l -> inside size bs o).
Proof.
  intros ((Hb & Hb2) & Hs & Hs2) Hd H. destruct (fixed_ok size bs ltac:(lia)) as (D & L & I).
  unfold MakeSampleOffsets in H. cbv zeta in H. replace (bs =? 0) with false in H by lia.
  destruct (_ && _); [discriminate|].
  destruct (random_samples fuel rnd 0 bs n (fixed_samples size bs)) as [s| |] eqn:E; cbn [rbind] in H; try discriminate.
  destruct (n <? zlen s) eqn:En; [discriminate|]. injection H as <-.
  assert (Ln : zlen (fixed_samples size bs) <= n).
  { destruct (Z.leb_spec (zlen (fixed_samples size bs)) n); [assumption|].
    exfalso. destruct fuel; cbn [random_samples] in E; replace (zlen (fixed_samples size bs) <? n) with false in E by lia; injection E as <-; lia. }
  apply (random_ok size) in E as (E1 & E2 & E3 & E4); try assumption; [|lia..].
  assert (P := sort_by_perm Z.ltb s).
  assert (A : forall o, In o (sort_by Z.ltb s) -> fixed size bs o \/ aligned_block size bs o).
  { intros o Ho. rewrite (Permutation_in' eq_refl P) in Ho. rewrite <- I. auto. }
  split; [|split; [|split; [|split]]].
  - unfold zlen. rewrite (Permutation_length P). assumption.
  - apply sort_Z. assumption.
  - intros o Ho. rewrite (Permutation_in' eq_refl P). apply E3, I, Ho.
  - exact A.
  - intros S2 S3 o Ho. destruct (A o Ho) as [(i & Hi & F)|F]; [|apply aligned_inside; [lia|lia|assumption]].
    unfold inside. destruct F as [F|[F|[[F0 F]|[F0 F]]]]; subst o; [nia|nia|specialize (S3 F0); nia|].
    assert (400 * bs <= 400 * 2^32) by lia. nia.
Qed.
Print Assumptions C43_samples_partial.

(** *** C43, termination: with [avail] the distinct sample positions that exist,
    generation ends if every block number is drawn sooner or later and the number
    of samples is between the number of fixed samples and that of [avail]. *)
Definition available (size bs : Z) (avail : list Z) : Prop :=
  NoDup avail /\ forall o, In o avail <-> fixed size bs o \/ aligned_block size bs o.
Definition fair (size bs : Z) (rnd : nat -> Z) : Prop := forall b, 0 <= b < size / bs -> exists k, rnd k = b.
Theorem C43_terminates_partial rnd size bs n avail : accepted size bs -> draws size bs rnd -> available size bs avail -> fair size bs rnd ->
  fixed_count size <= n <= zlen avail -> exists fuel l, MakeSampleOffsets fuel rnd size bs n = Ok l.
Proof.
  intros ((Hb & Hb2) & Hs & Hs2) Hd (Da & Ha) Hf Hn. destruct (fixed_ok size bs ltac:(lia)) as (D & L & I).
  assert (HK : exists K : nat, forall b, 0 <= b < size / bs -> exists j, (j < K)%nat /\ rnd j = b).
  { assert (G : forall m, Z.of_nat m <= size / bs -> exists K : nat, forall b, 0 <= b < Z.of_nat m -> exists j, (j < K)%nat /\ rnd j = b).
    { induction m as [|m IH]; intros Hm; [exists 0%nat; intros; lia|]. destruct IH as (K & HK); [lia|].
      destruct (Hf (Z.of_nat m) ltac:(lia)) as (k & Hk). exists (Nat.max K (S k)). intros b Hb'.
      destruct (Z.eq_dec b (Z.of_nat m)) as [->|]; [exists k; split; [lia|assumption]|].
      destruct (HK b ltac:(lia)) as (j & Hj & E). exists j. split; [lia|assumption]. }
    assert (0 <= size / bs) by (apply Z.div_pos; lia).
    destruct (G (Z.to_nat (size / bs))) as (K & HK); [lia|]. exists K. intros b Hb'. apply HK. lia. }
  destruct HK as (K & HK).
  destruct (random_fair size bs rnd n avail Hb ltac:(lia) Hd Da ltac:(lia) K 0 (fixed_samples size bs)) as (s & E); [|assumption|].
  { intros o Ho. apply Ha in Ho as [Ho|(b & Hb' & ->)]; [left; apply I; assumption|]. right. destruct (HK b Hb') as (j & Hj & <-). exists j. split; [lia|reflexivity]. }
  exists K. unfold MakeSampleOffsets. cbv zeta. replace (bs =? 0) with false by lia.
  assert (1 <= size / bs) by (apply Z.div_le_lower_bound; lia).
  assert (size / bs <= size) by (apply Z.div_le_upper_bound; nia).
  assert (Ei : i64 (size / bs) = size / bs) by (unfold i64; rewrite Z.mod_small; lia). rewrite Ei.
  replace (size / bs <=? 0) with false by lia. rewrite andb_false_r, E. cbn [rbind].
  apply (random_ok size) in E as (_ & E2 & _); try assumption; try lia.
  rewrite E2. replace (n <? n) with false by lia. eauto.
Qed.
Print Assumptions C43_terminates_partial.
(** *** C43, refuted: fewer samples than fixed ones (the --min/max-blocks options
    allow it) crash the program ... *)
Theorem C43_too_few_refuted fuel rnd size bs n : accepted size bs -> 0 <= n < fixed_count size ->
  MakeSampleOffsets fuel rnd size bs n = Panic.
Proof.
  intros ((Hb & Hb2) & Hs & Hs2) Hn. destruct (fixed_ok size bs ltac:(lia)) as (D & L & I).
  unfold MakeSampleOffsets. cbv zeta. replace (bs =? 0) with false by lia.
  replace (zlen (fixed_samples size bs) <? n) with false by lia. cbn [andb].
  destruct fuel; cbn [random_samples]; (replace (zlen (fixed_samples size bs) <? n) with false by lia); cbn [rbind];
  replace (n <? zlen (fixed_samples size bs)) with true by lia; reflexivity.
Qed.
Print Assumptions C43_too_few_refuted.
(** ... more samples than positions (a small device with the default minimum of
    1000 blocks and large blocks) never terminate ... *)
Theorem C43_too_many_refuted fuel rnd size bs n avail : accepted size bs -> draws size bs rnd -> available size bs avail -> zlen avail < n ->
  MakeSampleOffsets fuel rnd size bs n = Timeout.
Proof.
  intros ((Hb & Hb2) & Hs & Hs2) Hd (Da & Ha) Hn. destruct (fixed_ok size bs ltac:(lia)) as (D & L & I).
  unfold MakeSampleOffsets. cbv zeta. replace (bs =? 0) with false by lia.
  assert (1 <= size / bs) by (apply Z.div_le_lower_bound; lia).
  assert (size / bs <= size) by (apply Z.div_le_upper_bound; nia).
  assert (Ei : i64 (size / bs) = size / bs) by (unfold i64; rewrite Z.mod_small; lia). rewrite Ei.
  replace (size / bs <=? 0) with false by lia. rewrite andb_false_r.
  rewrite (random_stuck size bs rnd n avail); try assumption; try lia; [reflexivity| |].
  - intros o Ho. apply Ha. auto.
  - intros o Ho. apply Ha. left. apply I, Ho.
Qed.
Print Assumptions C43_too_many_refuted.
(** ... and devices that just pass the size check always get samples beyond their
    end, which makes the command fail. *)
Theorem C43_outside_refuted fuel rnd size bs n l : accepted size bs -> draws size bs rnd ->
  size < 64 * 2^20 + 200 * bs -> MakeSampleOffsets fuel rnd size bs n = Ok l -> exists o, In o l /\ ~ inside size bs o.
Proof.
  intros Ha Hd Hs H. destruct (C43_samples_partial fuel rnd size bs n l Ha Hd H) as (_ & _ & F & _).
  exists (64 * 2^20 + (99 + 100) * bs). split.
  - apply F. exists 99. split; [lia|]. auto.
  - unfold inside. lia.
Qed.
Print Assumptions C43_outside_refuted.
Lemma sample_loop_fails c buf samples : 126 <= zlen buf -> (exists o, In o samples /\ (o < 0 \/ zlen c < o + zlen buf)) ->
  (forall o, In o samples -> o < 2^63) -> (forall o, In o samples -> 0 <= o) -> forall h, sample_loop (file_reader c) buf samples h = Ok None.
Proof.
  revert buf. induction samples as [|o r IH]; intros buf Hb (x & Hx & Hout) H63 H0 h; [destruct Hx|].
  assert (R63 : forall o, In o r -> o < 2^63) by (intros; apply H63; right; assumption).
  assert (R0 : forall o, In o r -> 0 <= o) by (intros; apply H0; right; assumption).
  pose proof (H63 o (or_introl eq_refl)) as Ho. pose proof (H0 o (or_introl eq_refl)) as Ho0. cbn [sample_loop].
  unfold ReadBlockAt, file_reader. replace (i64 o) with o by (unfold i64; rewrite Z.mod_small; lia).
  replace (o <? 0) with false by lia. set (d := firstn (Z.to_nat (zlen buf)) (skipn (Z.to_nat o) c)).
  destruct (zlen d <? zlen buf) eqn:E; [reflexivity|].
  assert (Hd : zlen d <= zlen buf) by (unfold d; unfold zlen in *; rewrite firstn_length; lia).
  assert (Ho2 : o + zlen buf <= zlen c \/ c = [] \/ False).
  { left. unfold d, zlen in *. rewrite firstn_length, skipn_length in *. lia. }
  destruct Ho2 as [Ho2|[->|[]]]; [|unfold d in E; rewrite skipn_nil, firstn_nil in E; change (zlen (@nil byte)) with 0 in E; lia].
  assert (Eb : d ++ skipn (length d) buf = d).
  { rewrite skipn_all2; [apply app_nil_r|]. unfold zlen in *. lia. }
  rewrite Eb. replace (zlen d =? zlen buf) with true by lia.
  assert (Ld : zlen d = zlen buf) by lia. rewrite <- Ld in *. clearbody d.
  destruct (CollectBlock_total d h ltac:(lia)) as (h' & ->). cbn [rbind].
  apply IH; try assumption. destruct Hx as [<-|Hx]; [lia|]. exists x. split; [assumption|lia].
Qed.
Theorem C43_small_device_fails_refuted fuel rnd ent bs wish minb maxb mino order content out :
  accepted (zlen content) bs -> 126 <= bs -> draws (zlen content) bs rnd -> zlen content < 64 * 2^20 + 200 * bs ->
  IdentifyFS fuel rnd ent (zlen content, true) (file_reader content) bs wish minb maxb mino order = Ok out -> out = None.
Proof.
  intros Ha Hb Hd Hs. unfold IdentifyFS. pose proof Ha as ((H1 & H2) & H3 & H4).
  destruct (CheckDeviceSize (zlen content, true) bs) as [ds ok] eqn:E.
  assert (Eds : ds = zlen content).
  { unfold CheckDeviceSize in E. assert (u64 (zlen content) = zlen content) by (apply u64_id; lia). rewrite H in E.
    destruct (_ <? _) in E; [congruence|]. destruct (_ <? _) in E; congruence. }
  subst ds. destruct (negb ok); [congruence|]. replace (bs =? 0) with false by lia.
  set (n := if wish <? minb then minb else if maxb <? wish then maxb else wish).
  destruct (MakeSampleOffsets fuel rnd (zlen content) bs n) as [l| |] eqn:Em; cbn [rbind]; [|discriminate..].
  pose proof (C43_samples_partial fuel rnd _ bs n l Ha Hd Em) as (_ & _ & _ & F & _).
  destruct (C43_outside_refuted fuel rnd _ bs n l Ha Hd Hs Em) as (o & Ho & Hout).
  assert (Zb : zlen (repeat x00 (Z.to_nat bs)) = bs) by (rewrite zlen_repeat; lia).
  assert (Fo : forall o, In o l -> 0 <= o < 2^63).
  { intros x Hx. destruct (F x Hx) as [(i & Hi & G)|G].
    - assert (400 * bs <= 400 * 2^32) by lia. destruct G as [->|[->|[[_ ->]|[_ ->]]]]; nia.
    - apply aligned_inside in G; [unfold inside in G|..]; lia. }
  rewrite sample_loop_fails; rewrite ?Zb; [cbn [rbind]; congruence|assumption| | |].
  - exists o. split; [assumption|]. specialize (Fo o Ho). unfold inside in Hout. lia.
  - intros. apply Fo. assumption.
  - intros. apply Fo. assumption.
Qed.
Print Assumptions C43_small_device_fails_refuted.

(** examples: a 320 MiB device with 16 KiB blocks *)
Example C43_ex_accepted : accepted (320 * 2^20) 16384. Proof. unfold accepted. lia. Qed.
Example C43_ex : exists l, MakeSampleOffsets 20 (fun k => Z.of_nat k * 1000) (320 * 2^20) 16384 210 = Ok l /\ zlen l = 210.
Proof. eexists. split; vm_compute; reflexivity. Qed.
(** a 66 MiB device with 16 KiB blocks passes the check, and 67108864+200*16384 exceeds it *)
Example C43_ex_outside : accepted (66 * 2^20) 16384 /\ 66 * 2^20 < 64 * 2^20 + 200 * 16384. Proof. unfold accepted. lia. Qed.

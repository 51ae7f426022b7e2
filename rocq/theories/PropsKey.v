(** Property theorems C01-C04, C11, C12: index keys and the metadata record. *)
From Verif Require Import Go GoProofs Layout LayoutProofs SpecLayout KeyFmt KeyProofs Store.
From Coq Require Import ZifyBool ZifyNat ZifyN.
Ltac Zify.zify_post_hook ::= Z.div_mod_to_equations.

(** an (owner, FS key, generation) tuple of Go values *)
Definition u64_key (k : Key) : Prop :=
  0 <= ObjectID k < 2^64 /\ 0 <= KType k < 2^8 /\ 0 <= KOffset k < 2^64.
Definition u64_tuple (o : Z) (k : Key) (g : Z) : Prop := 0 <= o < 2^64 /\ u64_key k /\ 0 <= g < 2^64.

(** ** C01 *)
Theorem C01_roundtrip : forall o k g, u64_tuple o k g ->
  let ik := newIndexKey o k g in
  length ik = 33%nat /\ ik_Owner ik = o /\ ik_Type ik = KType k /\ ik_ObjectID ik = ObjectID k /\
  ik_Offset ik = KOffset k /\ ik_Generation ik = g /\ ik_Key ik = k.
Proof. intros o k g H. split; [apply newIndexKey_length|]. exact (ik_built o k g H). Qed.
Theorem C01_injective : forall o k g o' k' g', u64_tuple o k g -> u64_tuple o' k' g' ->
  newIndexKey o k g = newIndexKey o' k' g' -> o = o' /\ k = k' /\ g = g'.
Proof. exact newIndexKey_inj. Qed.
(** and every 33-byte string is the key of some tuple *)
Theorem C01_surjective : forall l, length l = 33%nat ->
  u64_tuple (ik_Owner l) (ik_Key l) (ik_Generation l) /\ newIndexKey (ik_Owner l) (ik_Key l) (ik_Generation l) = l.
Proof. intros l H. destruct (key_split l H) as [E W]. split; [exact W|symmetry; exact E]. Qed.
Example C01_ex : u64_tuple 5 (mkKey 257 108 4096) 12345.
Proof. unfold u64_tuple, u64_key; cbn; lia. Qed.
Print Assumptions C01_roundtrip. Print Assumptions C01_injective. Print Assumptions C01_surjective.

(** ** C02: lexicographic comparison of (owner, type, object id, offset, generation) *)
Definition lex (c : comparison) (d : comparison) : comparison := match c with Eq => d | _ => c end.
Definition tuple_compare (o : Z) (k : Key) (g : Z) (o' : Z) (k' : Key) (g' : Z) : comparison :=
  lex (o ?= o') (lex (KType k ?= KType k') (lex (ObjectID k ?= ObjectID k') (lex (KOffset k ?= KOffset k') (g ?= g')))).
Lemma lex_num a b c d m : 0 <= b < m -> 0 <= d < m ->
  (a * m + b ?= c * m + d) = lex (a ?= c) (b ?= d).
Proof.
  intros Hb Hd. destruct (Z.compare_spec a c) as [E|E|E]; cbn [lex].
  - subst. destruct (Z.compare_spec b d) as [F|F|F]; [apply Z.compare_eq_iff|apply Z.compare_lt_iff|apply Z.compare_gt_iff]; lia.
  - apply Z.compare_lt_iff. nia.
  - apply Z.compare_gt_iff. nia.
Qed.
Lemma lex_assoc a b c : lex (lex a b) c = lex a (lex b c).
Proof. destruct a; reflexivity. Qed.
Theorem C02_order : forall o k g o' k' g', u64_tuple o k g -> u64_tuple o' k' g' ->
  bytes_cmp (newIndexKey o k g) (newIndexKey o' k' g') = tuple_compare o k g o' k' g'.
Proof.
  intros o k g o' k' g' W W'. rewrite cmp33 by apply newIndexKey_length.
  rewrite !newIndexKey_num by assumption. destruct W as (Ho & (H1 & H2 & H3) & Hg), W' as (Ho' & (H1' & H2' & H3') & Hg').
  unfold num, knum, tuple_compare. rewrite !lex_num by assumption. rewrite !lex_assoc. reflexivity.
Qed.
(** all generations of one FS key are adjacent: nothing else sorts between them *)
Theorem C02_generations_adjacent : forall o k g1 g2 x, u64_tuple o k g1 -> u64_tuple o k g2 -> length x = 33%nat ->
  bytes_cmp (newIndexKey o k g1) x = Lt -> bytes_cmp x (newIndexKey o k g2) = Lt ->
  exists g, g1 < g < g2 /\ x = newIndexKey o k g.
Proof.
  intros o k g1 g2 x W1 W2 Hx L1 L2. destruct (key_split x Hx) as [E W]. rewrite E in L1, L2.
  rewrite C02_order in L1, L2 by assumption. unfold tuple_compare in *.
  set (o' := ik_Owner x) in *. set (k' := ik_Key x) in *. set (g' := ik_Generation x) in *.
  destruct (Z.compare_spec o o'), (Z.compare_spec o' o); cbn [lex] in *; try discriminate; try lia.
  destruct (Z.compare_spec (KType k) (KType k')), (Z.compare_spec (KType k') (KType k)); cbn [lex] in *; try discriminate; try lia.
  destruct (Z.compare_spec (ObjectID k) (ObjectID k')), (Z.compare_spec (ObjectID k') (ObjectID k)); cbn [lex] in *; try discriminate; try lia.
  destruct (Z.compare_spec (KOffset k) (KOffset k')), (Z.compare_spec (KOffset k') (KOffset k)); cbn [lex] in *; try discriminate; try lia.
  exists g'. split; [split; [exact L1|exact L2]|].
  rewrite E. f_equal; [congruence|]. destruct k as [a1 a2 a3], k' as [b1 b2 b3]; cbn in *; congruence.
Qed.
Print Assumptions C02_order. Print Assumptions C02_generations_adjacent.

(** ** C03 *)
Definition key_compare_spec (a b : Key) : comparison :=
  lex (KType a ?= KType b) (lex (ObjectID a ?= ObjectID b) (KOffset a ?= KOffset b)).
Theorem C03_sign_partial : forall a b, u64_key a -> u64_key b -> (KeyCompare a b ?= 0) = key_compare_spec a b.
Proof.
  intros [i t f] [i' t' f'] _ _. unfold KeyCompare, key_compare_spec; cbn [ObjectID KType KOffset].
  destruct (Z.compare_spec t t') as [E|E|E]; cbn [lex].
  - subst. rewrite Z.sub_diag. cbn [Z.eqb negb].
    destruct (Z.compare_spec i i') as [E|E|E]; cbn [lex].
    + subst. rewrite Z.ltb_irrefl. destruct (Z.compare_spec f f') as [E|E|E].
      * subst. rewrite Z.ltb_irrefl. reflexivity.
      * replace (f <? f') with true by lia. reflexivity.
      * replace (f <? f') with false by lia. replace (f' <? f) with true by lia. reflexivity.
    + replace (i <? i') with true by lia. reflexivity.
    + replace (i <? i') with false by lia. replace (i' <? i) with true by lia. reflexivity.
  - replace (negb (t - t' =? 0)) with true by lia. apply Z.compare_lt_iff. lia.
  - replace (negb (t - t' =? 0)) with true by lia. apply Z.compare_gt_iff. lia.
Qed.
(** same order as the index, for one owner and generation *)
Theorem C03_index_order_partial : forall o g a b, 0 <= o < 2^64 -> 0 <= g < 2^64 -> u64_key a -> u64_key b ->
  bytes_cmp (newIndexKey o a g) (newIndexKey o b g) = (KeyCompare a b ?= 0).
Proof.
  intros o g a b Ho Hg Ha Hb. rewrite C02_order by (unfold u64_tuple; auto).
  rewrite C03_sign_partial by assumption. unfold tuple_compare, key_compare_spec. rewrite Z.compare_refl. cbn [lex].
  rewrite !Z.compare_refl. destruct (KType a ?= KType b), (ObjectID a ?= ObjectID b), (KOffset a ?= KOffset b); reflexivity.
Qed.
(** total order *)
Theorem C03_total_order_partial : forall a b c,
  KeyCompare a a = 0 /\ KeyCompare b a = - KeyCompare a b /\
  (KeyCompare a b = 0 -> a = b) /\ (KeyCompare a b <= 0 -> KeyCompare b c <= 0 -> KeyCompare a c <= 0).
Proof.
  intros [i t f] [i' t' f'] [i'' t'' f'']. unfold KeyCompare; cbn [ObjectID KType KOffset].
  repeat split.
  - rewrite Z.sub_diag. cbn. rewrite !Z.ltb_irrefl. reflexivity.
  - destruct (t - t' =? 0) eqn:E1; destruct (t' - t =? 0) eqn:E2; cbn [negb]; try lia.
    destruct (i <? i') eqn:A; destruct (i' <? i) eqn:B; try lia.
    destruct (f <? f') eqn:C; destruct (f' <? f) eqn:D; try lia.
  - destruct (t - t' =? 0) eqn:E1; cbn [negb]; [|lia].
    destruct (i <? i') eqn:A; destruct (i' <? i) eqn:B; try lia.
    destruct (f <? f') eqn:C; destruct (f' <? f) eqn:D; try lia.
    intros _. f_equal; lia.
  - destruct (t - t' =? 0) eqn:E1; destruct (t' - t'' =? 0) eqn:E2; destruct (t - t'' =? 0) eqn:E3; cbn [negb]; try lia;
    destruct (i <? i') eqn:A; destruct (i' <? i) eqn:B; try lia;
    destruct (i' <? i'') eqn:A2; destruct (i'' <? i') eqn:B2; try lia;
    destruct (i <? i'') eqn:A3; destruct (i'' <? i) eqn:B3; try lia;
    destruct (f <? f') eqn:C; destruct (f' <? f) eqn:D; try lia;
    destruct (f' <? f'') eqn:C2; destruct (f'' <? f') eqn:D2; try lia;
    destruct (f <? f'') eqn:C3; destruct (f'' <? f) eqn:D3; try lia.
Qed.
(** the documented "-1 or +1" does not hold *)
Theorem C03_magnitude_refuted : exists a b, u64_key a /\ u64_key b /\ KeyCompare a b = 23.
Proof. exists (mkKey 0 24 0), (mkKey 0 1 0). unfold u64_key; cbn. repeat split; lia. Qed.
Print Assumptions C03_sign_partial. Print Assumptions C03_index_order_partial. Print Assumptions C03_total_order_partial. Print Assumptions C03_magnitude_refuted.

(** ** C04 *)
Theorem C04_bracket : forall t i k, 0 <= t < 2^8 -> 0 <= i < 2^64 -> u64_key k ->
  exists lo hi, KF [t; i] = Ok lo /\ KL [t; i] = Ok hi /\
  ((KeyCompare lo k <= 0 /\ KeyCompare k hi <= 0) <-> (KType k = t /\ ObjectID k = i)).
Proof.
  intros t i [i' t' f'] Ht Hi (H1 & H2 & H3). eexists _, _. split; [reflexivity|]. split; [reflexivity|].
  cbn [ObjectID KType KOffset] in *. unfold u8. rewrite Z.mod_small by lia.
  unfold KeyCompare, max64; cbn [ObjectID KType KOffset].
  destruct (t - t' =? 0) eqn:E; destruct (t' - t =? 0) eqn:E'; cbn [negb]; try lia.
  destruct (i <? i') eqn:A; destruct (i' <? i) eqn:B; try lia.
  destruct (0 <? f') eqn:C; destruct (f' <? 0) eqn:D; destruct (f' <? 2^64 - 1) eqn:F; destruct (2^64 - 1 <? f') eqn:G; lia.
Qed.
(** with type, object id and offset both give exactly that key; with none, the
    bracket covers everything except type 255 above the last free object id *)
Theorem C04_exact_and_all : forall t i o k, 0 <= t < 2^8 -> u64_key k ->
  KF [t; i; o] = Ok (mkKey i t o) /\ KL [t; i; o] = Ok (mkKey i t o) /\
  exists lo hi, KF [] = Ok lo /\ KL [] = Ok hi /\ KeyCompare lo k <= 0 /\
  (KeyCompare k hi <= 0 <-> ~ (KType k = 255 /\ 2^64 - 256 < ObjectID k)).
Proof.
  intros t i o [i' t' f'] Ht (H1 & H2 & H3). cbn [ObjectID KType KOffset] in *.
  split; [unfold KF, keyFirst, u8; rewrite Z.mod_small by lia; reflexivity|].
  split; [unfold KL, keyFirst, u8; rewrite Z.mod_small by lia; reflexivity|].
  eexists _, _. split; [reflexivity|]. split; [reflexivity|].
  unfold KeyCompare, max64, LastFreeObjectID; cbn [ObjectID KType KOffset]. split.
  - destruct (0 - t' =? 0) eqn:E; cbn [negb]; [|lia].
    destruct (0 <? i') eqn:A; destruct (i' <? 0) eqn:B; try lia.
    destruct (0 <? f') eqn:C; destruct (f' <? 0) eqn:D; lia.
  - destruct (t' - 255 =? 0) eqn:E; cbn [negb]; [|lia].
    destruct (i' <? 2^64 - 256) eqn:A; destruct (2^64 - 256 <? i') eqn:B; try lia.
    destruct (f' <? 2^64 - 1) eqn:C; destruct (2^64 - 1 <? f') eqn:D; lia.
Qed.
Theorem C04_too_many : forall args, (length args > 3)%nat -> KF args = Panic /\ KL args = Panic.
Proof.
  intros args H. destruct args as [|a [|b [|c [|d r]]]]; cbn [length] in H; try lia. split; reflexivity.
Qed.
Print Assumptions C04_bracket. Print Assumptions C04_exact_and_all. Print Assumptions C04_too_many.

(** ** C11: the metadata record *)
Theorem C11_metadata : forall o, length (o_FSID o) = 16%nat -> 0 <= o_Generation o < 2^64 ->
  let m := newIndexMetadata o in
  md_Version m = Ok 20190809 /\ md_BlockSize m = Ok (o_BlockSize o mod 2^32) /\
  md_FSID m = Ok (o_FSID o) /\ md_Generation m = Ok (o_Generation o).
Proof.
  intros o Hf Hg. cbv zeta.
  assert (W : slice_wf (sl (newIndexMetadata o))) by apply sl_wf.
  assert (L : s_len (sl (newIndexMetadata o)) = 36).
  { cbn [sl s_len]. unfold newIndexMetadata. rewrite !zlen_app, !zlen_le_encode. unfold zlen. rewrite Hf. reflexivity. }
  assert (A : s_arr (sl (newIndexMetadata o)) = le_encode 8 MetadataVersion ++ le_encode 4 (u32 (o_BlockSize o)) ++ o_FSID o ++ le_encode 8 (o_Generation o)) by reflexivity.
  repeat split.
  - apply (at64_val _ [] MetadataVersion _ 0 W A eq_refl); [rewrite L; lia|unfold is_u64, MetadataVersion; lia].
  - apply (at32_val _ (le_encode 8 MetadataVersion) (u32 (o_BlockSize o)) _ 8 W A eq_refl); [rewrite L; lia|apply u32_range].
  - apply (atUUID_val _ (le_encode 8 MetadataVersion ++ le_encode 4 (u32 (o_BlockSize o))) (o_FSID o) (le_encode 8 (o_Generation o)) 12 W);
      [rewrite A, <- !app_assoc; reflexivity|reflexivity|rewrite L; lia|exact Hf].
  - apply (at64_val _ (le_encode 8 MetadataVersion ++ le_encode 4 (u32 (o_BlockSize o)) ++ o_FSID o) (o_Generation o) [] 28 W);
      [rewrite A, <- !app_assoc, app_nil_r; reflexivity| |rewrite L; lia|exact Hg].
    rewrite !zlen_app, !zlen_le_encode. unfold zlen. rewrite Hf. reflexivity.
Qed.
Example C11_ex : length (o_FSID (mkOptions false 16384 (repeat x07 16) 1 false)) = 16%nat /\
  0 <= o_Generation (mkOptions false 16384 (repeat x07 16) 1 false) < 2^64.
Proof. cbn. split; [reflexivity|lia]. Qed.
Print Assumptions C11_metadata.

(** ** C12 *)
Theorem C12_upgrade_lossless : forall l, length l = 33%nat ->
  let l2 := NewIndexKeyFromV1 l in
  ik_Owner l2 = v1_Owner l /\ ik_Type l2 = v1_Type l /\ ik_ObjectID l2 = v1_ObjectID l /\
  ik_Offset l2 = v1_Offset l /\ ik_Generation l2 = v1_Generation l /\ l2 = l.
Proof.
  intros l H. destruct (key_split l H) as [E W].
  destruct (ik_built _ _ _ W) as (A & B & C & D & F & _).
  cbv zeta. unfold NewIndexKeyFromV1. repeat split; try assumption. symmetry; exact E.
Qed.
Theorem C12_upgrade_injective : forall a b, length a = 33%nat -> length b = 33%nat ->
  NewIndexKeyFromV1 a = NewIndexKeyFromV1 b -> a = b.
Proof.
  intros a b Ha Hb E. destruct (C12_upgrade_lossless a Ha) as (_ & _ & _ & _ & _ & Ea).
  destruct (C12_upgrade_lossless b Hb) as (_ & _ & _ & _ & _ & Eb). congruence.
Qed.
Print Assumptions C12_upgrade_lossless. Print Assumptions C12_upgrade_injective.

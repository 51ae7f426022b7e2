(** Proofs about index keys. *)
From Verif Require Import Go GoProofs Layout LayoutProofs KeyFmt.
From Coq Require Import ZifyBool ZifyNat ZifyN.
Ltac Zify.zify_post_hook ::= Z.div_mod_to_equations.

Definition wf_Key (k : Key) : Prop := is_u64 (ObjectID k) /\ is_u8 (KType k) /\ is_u64 (KOffset k).
Definition wf_tuple (o : Z) (k : Key) (g : Z) : Prop := is_u64 o /\ wf_Key k /\ is_u64 g.

(** the key as one number *)
Definition knum (o : Z) (k : Key) : Z := ((o * 2^8 + KType k) * 2^64 + ObjectID k) * 2^64 + KOffset k.
Definition num (o : Z) (k : Key) (g : Z) : Z := knum o k * 2^64 + g.

Lemma newIndexKey_length o k g : length (newIndexKey o k g) = 33%nat.
Proof. unfold newIndexKey. rewrite !app_length, !be_encode_length. reflexivity. Qed.
Lemma be1 t : is_u8 t -> be_decode [zb t] = t.
Proof. intros H. unfold be_decode. cbn [rev app le_decode]. rewrite bz_zb_small by exact H. lia. Qed.
Lemma be8 v : is_u64 v -> be_decode (be_encode 8 v) = v.
Proof. intros H. apply be_decode_encode. exact H. Qed.
Lemma newIndexKey_num o k g : wf_tuple o k g -> be_decode (newIndexKey o k g) = num o k g.
Proof.
  intros (Ho & (Hi & Ht & Hf) & Hg). unfold newIndexKey.
  rewrite !be_decode_app, !be8, be1 by assumption.
  rewrite !zlen_app, !zlen_be_encode. change (zlen [zb (KType k)]) with 1.
  unfold num, knum. cbn [Z.of_nat Z.add]. lia.
Qed.

(** prefixes *)
Lemma be_firstn n l : (n <= length l)%nat ->
  be_decode (firstn n l) = be_decode l / 256 ^ (zlen l - Z.of_nat n).
Proof.
  intros H. rewrite <- (firstn_skipn n l) at 2. rewrite be_decode_app.
  assert (E : zlen (skipn n l) = zlen l - Z.of_nat n) by (unfold zlen; rewrite skipn_length; lia).
  rewrite E. pose proof (be_decode_range (skipn n l)) as R. rewrite E in R.
  rewrite Z.div_add_l by lia. rewrite Z.div_small by lia. lia.
Qed.
Lemma be_skipn n l : (n <= length l)%nat ->
  be_decode (skipn n l) = be_decode l mod 256 ^ (zlen l - Z.of_nat n).
Proof.
  intros H. rewrite <- (firstn_skipn n l) at 2. rewrite be_decode_app.
  assert (E : zlen (skipn n l) = zlen l - Z.of_nat n) by (unfold zlen; rewrite skipn_length; lia).
  rewrite E. pose proof (be_decode_range (skipn n l)) as R. rewrite E in R.
  rewrite Z.add_comm, Z_mod_plus_full, Z.mod_small; lia.
Qed.
Lemma be_pfx25 l : length l = 33%nat -> be_decode (firstn 25 l) = be_decode l / 2^64.
Proof. intros H. rewrite be_firstn by lia. unfold zlen; rewrite H. reflexivity. Qed.
Lemma be_pfx17 l : length l = 33%nat -> be_decode (firstn 17 l) = be_decode l / 2^128.
Proof. intros H. rewrite be_firstn by lia. unfold zlen; rewrite H. reflexivity. Qed.

(** accessors of a built key *)
Lemma sub_app a m r off n : zlen a = off -> zlen m = n -> sub_bytes off n (a ++ m ++ r) = m.
Proof. intros Ha Hm. unfold sub_bytes. rewrite skipn_zlen by exact Ha. apply firstn_zlen; exact Hm. Qed.
Lemma sub_app0 m r n : zlen m = n -> sub_bytes 0 n (m ++ r) = m.
Proof. intros Hm. exact (sub_app [] m r 0 n eq_refl Hm). Qed.
Lemma ik_built o k g : wf_tuple o k g ->
  ik_Owner (newIndexKey o k g) = o /\ ik_Type (newIndexKey o k g) = KType k /\
  ik_ObjectID (newIndexKey o k g) = ObjectID k /\ ik_Offset (newIndexKey o k g) = KOffset k /\
  ik_Generation (newIndexKey o k g) = g /\ ik_Key (newIndexKey o k g) = k.
Proof.
  intros (Ho & (Hi & Ht & Hf) & Hg).
  assert (E1 : ik_Owner (newIndexKey o k g) = o).
  { unfold ik_Owner, newIndexKey, keyV2Owner. rewrite sub_app0 by reflexivity. apply be8; exact Ho. }
  assert (E2 : ik_Type (newIndexKey o k g) = KType k).
  { unfold ik_Type, newIndexKey. change (Z.to_nat keyV2Type) with 8%nat.
    rewrite app_nth2 by (rewrite be_encode_length; lia). rewrite be_encode_length. cbn [app nth Nat.sub].
    apply bz_zb_small; exact Ht. }
  assert (E3 : ik_ObjectID (newIndexKey o k g) = ObjectID k).
  { unfold ik_ObjectID, newIndexKey. rewrite app_assoc. rewrite (sub_app (be_encode 8 o ++ [zb (KType k)]) (be_encode 8 (ObjectID k))) by reflexivity.
    apply be8; exact Hi. }
  assert (E4 : ik_Offset (newIndexKey o k g) = KOffset k).
  { unfold ik_Offset, newIndexKey. rewrite 2app_assoc.
    rewrite (sub_app ((be_encode 8 o ++ [zb (KType k)]) ++ be_encode 8 (ObjectID k)) (be_encode 8 (KOffset k))) by reflexivity.
    apply be8; exact Hf. }
  assert (E5 : ik_Generation (newIndexKey o k g) = g).
  { unfold ik_Generation, newIndexKey. rewrite 3app_assoc. rewrite <- (app_nil_r (be_encode 8 g)).
    rewrite (sub_app (((be_encode 8 o ++ [zb (KType k)]) ++ be_encode 8 (ObjectID k)) ++ be_encode 8 (KOffset k)) (be_encode 8 g)) by reflexivity.
    apply be8; exact Hg. }
  repeat split; try assumption. unfold ik_Key. rewrite E2, E3, E4. destruct k; reflexivity.
Qed.
(** every 33-byte string is a key *)
Lemma bytes_u64 l : length l = 8%nat -> is_u64 (be_decode l).
Proof. intros H. pose proof (be_decode_range l) as R. unfold zlen in R. rewrite H in R. exact R. Qed.
Lemma split_at {A} (l : list A) n : l = firstn n l ++ skipn n l.
Proof. symmetry; apply firstn_skipn. Qed.
Lemma list33 (l : list byte) : length l = 33%nat ->
  exists a t i f g, l = a ++ [t] ++ i ++ f ++ g /\ length a = 8%nat /\ length i = 8%nat /\ length f = 8%nat /\ length g = 8%nat.
Proof.
  intros H. exists (firstn 8 l), (nth 8 l x00), (firstn 8 (skipn 9 l)), (firstn 8 (skipn 17 l)), (skipn 25 l).
  repeat split; rewrite ?firstn_length, ?skipn_length; try lia.
  do 33 (destruct l as [|? l]; [discriminate H|]). destruct l; [reflexivity|discriminate H].
Qed.
Lemma key_split l : length l = 33%nat ->
  l = newIndexKey (ik_Owner l) (ik_Key l) (ik_Generation l) /\ wf_tuple (ik_Owner l) (ik_Key l) (ik_Generation l).
Proof.
  intros H. destruct (list33 l H) as (a & t & i & f & g & E & La & Li & Lf & Lg).
  assert (E1 : ik_Owner l = be_decode a).
  { unfold ik_Owner, keyV2Owner. rewrite E. rewrite sub_app0; [reflexivity|unfold zlen; rewrite La; reflexivity]. }
  assert (E2 : ik_Type l = bz t).
  { unfold ik_Type. rewrite E. change (Z.to_nat keyV2Type) with 8%nat. rewrite app_nth2 by lia. rewrite La. reflexivity. }
  assert (E3 : ik_ObjectID l = be_decode i).
  { unfold ik_ObjectID. rewrite E, app_assoc. rewrite sub_app; [reflexivity| |unfold zlen; rewrite Li; reflexivity].
    unfold zlen; rewrite app_length, La; reflexivity. }
  assert (E4 : ik_Offset l = be_decode f).
  { unfold ik_Offset. rewrite E, 2app_assoc. rewrite sub_app; [reflexivity| |unfold zlen; rewrite Lf; reflexivity].
    unfold zlen; rewrite !app_length, La, Li; reflexivity. }
  assert (E5 : ik_Generation l = be_decode g).
  { unfold ik_Generation. rewrite E, 3app_assoc. rewrite <- (app_nil_r g) at 1. rewrite sub_app; [reflexivity| |unfold zlen; rewrite Lg; reflexivity].
    unfold zlen; rewrite !app_length, La, Li, Lf; reflexivity. }
  split.
  - unfold ik_Key, newIndexKey; cbn [ObjectID KType KOffset]. rewrite E1, E2, E3, E4, E5, zb_bz.
    rewrite <- La at 1. rewrite be_encode_decode. rewrite <- Li at 1. rewrite be_encode_decode.
    rewrite <- Lf at 1. rewrite be_encode_decode. rewrite <- Lg at 1. rewrite be_encode_decode. exact E.
  - unfold wf_tuple, wf_Key, ik_Key; cbn [ObjectID KType KOffset]. rewrite E1, E2, E3, E4, E5.
    repeat split; try (apply bytes_u64; assumption); apply bz_range.
Qed.
Lemma key_num l : length l = 33%nat -> be_decode l = num (ik_Owner l) (ik_Key l) (ik_Generation l).
Proof.
  intros H. destruct (key_split l H) as [E W]. rewrite E at 1. apply newIndexKey_num; exact W.
Qed.

(** arithmetic of [num] *)
Lemma num_div o k g : is_u64 g -> num o k g / 2^64 = knum o k.
Proof. unfold is_u64, num. intros H. rewrite Z.div_add_l by lia. rewrite Z.div_small by lia. lia. Qed.
Lemma num_mod o k g : is_u64 g -> num o k g mod 2^64 = g.
Proof. unfold is_u64, num. intros H. rewrite Z.add_comm, Z_mod_plus_full, Z.mod_small; lia. Qed.
Lemma knum_inj o k o' k' : is_u64 o -> is_u64 o' -> wf_Key k -> wf_Key k' -> knum o k = knum o' k' -> o = o' /\ k = k'.
Proof.
  unfold is_u64, wf_Key, is_u8, knum. destruct k as [i t f], k' as [i' t' f']; cbn [ObjectID KType KOffset].
  intros Ho Ho' (H1 & H2 & H3) (H1' & H2' & H3') E. unfold is_u64 in *.
  assert (f = f') by lia. assert (i = i') by lia. assert (t = t') by lia. assert (o = o') by lia. subst. split; reflexivity.
Qed.
Lemma num_inj o k g o' k' g' : wf_tuple o k g -> wf_tuple o' k' g' -> num o k g = num o' k' g' -> o = o' /\ k = k' /\ g = g'.
Proof.
  intros (Ho & Hk & Hg) (Ho' & Hk' & Hg') E.
  assert (E1 : knum o k = knum o' k') by (rewrite <- (num_div o k g), <- (num_div o' k' g') by assumption; congruence).
  assert (E2 : g = g') by (rewrite <- (num_mod o k g), <- (num_mod o' k' g') by assumption; congruence).
  destruct (knum_inj o k o' k') as [-> ->]; try assumption. repeat split; exact E2.
Qed.
Lemma newIndexKey_inj o k g o' k' g' : wf_tuple o k g -> wf_tuple o' k' g' ->
  newIndexKey o k g = newIndexKey o' k' g' -> o = o' /\ k = k' /\ g = g'.
Proof.
  intros W W' E. apply num_inj; try assumption.
  rewrite <- !newIndexKey_num by assumption. rewrite E. reflexivity.
Qed.
Lemma cmp33 a b : length a = 33%nat -> length b = 33%nat -> bytes_cmp a b = Z.compare (be_decode a) (be_decode b).
Proof. intros Ha Hb. apply bytes_cmp_be. congruence. Qed.

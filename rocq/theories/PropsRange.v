(** Property theorems C21-C23, C28, C62: bounds, subvolumes, full range,
    binary search and address mapping. *)
From Verif Require Import Go GoProofs Layout LayoutProofs SpecLayout StructProofs PropsLayout KeyFmt KeyProofs Bolt Store StoreProofs SpecStore RangeProofs PropsStore.
From Coq Require Import ZifyBool ZifyNat ZifyN Sorted.
Ltac Zify.zify_post_hook ::= Z.div_mod_to_equations.

Lemma yields_In b o g ks ik v : wf_bucket b -> In (ik, v) (yields b o g ks) -> exists k, In k ks /\ ik = newIndexKey o k g /\ stored b o k g v.
Proof.
  intros W. induction ks as [|k ks IH]; [intros []|]. cbn [yields]. destruct (get b (newIndexKey o k g)) as [v'|] eqn:G; [|intros []].
  intros [[= <- <-]|H].
  - exists k. split; [left; reflexivity|]. split; [reflexivity|]. apply get_In in G; assumption.
  - destruct (IH H) as (k' & A & B). exists k'. split; [right; exact A|exact B].
Qed.

(** ** C21 *)
(** what is yielded belongs to the owner, is at or after the first offset of
    first's object, and at or before last (inclusive) *)
Theorem C21_bounds_partial : forall b gen o first last fuel,
  opened b -> is_u64 o -> o < 2^64 - 1 -> wf_Key first -> wf_Key last -> is_u64 gen ->
  data_ok b o -> no_max_gen b o -> no_wrap b o last ->
  (gen = 2^64 - 1 \/ ~ present b o last) -> key_lt last (mkKey (2^64 - 256) 255 (2^64 - 1)) ->
  (length b + 1 < fuel)%nat ->
  exists out, range_collect fuel b (mkRangeFrom b gen o first last) = Ok out /\
  forall ik d, In (ik, d) out -> exists k g v, ik = newIndexKey o k g /\ stored b o k g v /\
    key_le (mkKey (ObjectID first) (KType first) 0) k /\ key_le k last.
Proof.
  intros b gen o first last fuel Op Ho Hom Hf Hl Hgen ND NM NA Hlast HL0 Hfuel. pose proof Op as [W _].
  destruct (keys_between_exists b o (mkKey (ObjectID first) (KType first) 0) last W Ho (wf_first0 _ Hf) Hl) as (ks & KB & _).
  pose proof (range_exact b gen o first last fuel ks collect_body [] Op Ho Hom Hf Hl Hgen ND NM NA Hlast KB Hfuel) as H.
  unfold range_collect. destruct ks as [|k ks].
  - exists []. split; [apply H; exact HL0|intros ik d []].
  - destruct (_ && _).
    + destruct H as (g & v & Hsel & H). rewrite H. rewrite fold_collect.
      2:{ apply (yields_ok b o g (k :: ks) W (proj1 (proj2 Hsel))); [|exact ND]. intros k' Hk'. apply KB in Hk'. apply Hk'. }
      eexists. split; [reflexivity|]. intros ik d Hin. cbn [app] in Hin. apply in_map_iff in Hin as ([ik' v'] & [= <- <-] & Hin).
      apply yields_In in Hin as (k' & Hk' & -> & Hst); [|exact W]. apply KB in Hk' as (_ & A & B). exists k', g, v'. auto.
    + exists []. split; [apply H; exact HL0|intros ik d []].
Qed.
(** last itself is yielded (the documentation says [first, last)) *)
Theorem C21_last_refuted : exists b o first last, opened b /\ is_u64 o /\ wf_Key first /\ wf_Key last /\
  exists out, (forall fuel, (3 <= fuel)%nat -> range_collect fuel b (mkRangeFrom b (2^64-1) o first last) = Ok out) /\
  exists ik d, In (ik, d) out /\ ik_Key ik = last.
Proof.
  exists (mkb [(5, mkKey 256 84 100, 7, itemv [x01])]), 5, (mkKey 256 84 0), (mkKey 256 84 100).
  split; [apply opened_ok; vm_compute; reflexivity|].
  do 3 (split; [unfold wf_Key, is_u64, is_u8; cbn; lia|]).
  exists [(newIndexKey 5 (mkKey 256 84 100) 7, [x01])]. split.
  - intros fuel Hfuel. do 3 (destruct fuel as [|fuel]; [lia|]). vm_compute. reflexivity.
  - eexists _, _. split; [left; reflexivity|]. vm_compute. reflexivity.
Qed.
(** an item before first is yielded: first's offset is ignored *)
Theorem C21_first_refuted : exists b o first last, opened b /\ is_u64 o /\ wf_Key first /\ wf_Key last /\
  exists out, (forall fuel, (3 <= fuel)%nat -> range_collect fuel b (mkRangeFrom b (2^64-1) o first last) = Ok out) /\
  exists ik d, In (ik, d) out /\ key_lt (ik_Key ik) first.
Proof.
  exists (mkb [(5, mkKey 256 84 100, 7, itemv [x01])]), 5, (mkKey 256 84 150), (mkKey 256 84 200).
  split; [apply opened_ok; vm_compute; reflexivity|].
  do 3 (split; [unfold wf_Key, is_u64, is_u8; cbn; lia|]).
  exists [(newIndexKey 5 (mkKey 256 84 100) 7, [x01])]. split.
  - intros fuel Hfuel. do 3 (destruct fuel as [|fuel]; [lia|]). vm_compute. reflexivity.
  - eexists _, _. split; [left; reflexivity|].
    replace (ik_Key (newIndexKey 5 (mkKey 256 84 100) 7)) with (mkKey 256 84 100) by (vm_compute; reflexivity).
    unfold key_lt; cbn; lia.
Qed.
Example C21_ex : opened b19u /\ data_ok b19u 5 /\ no_max_gen b19u 5 /\ no_alias b19u 5 /\
  key_lt (mkKey 256 84 300) (mkKey (2^64 - 256) 255 (2^64 - 1)).
Proof. destruct C19_ex as (A & B & C & D & _). repeat (split; [assumption|]). unfold key_lt; cbn; lia. Qed.
Print Assumptions C21_bounds_partial. Print Assumptions C21_last_refuted. Print Assumptions C21_first_refuted.

(** ** C22 *)
Definition subvol_first := mkKey 256 132 0.
Definition subvol_last := mkKey (2^64 - 256) 132 (2^64 - 1).
Lemma wf_svf : wf_Key subvol_first. Proof. unfold wf_Key, is_u64, is_u8; cbn; lia. Qed.
Lemma wf_svl : wf_Key subvol_last. Proof. unfold wf_Key, is_u64, is_u8; cbn; lia. Qed.
(** if subvolume 256 exists and all root items have one generation: all of them *)
Theorem C22_uniform_partial : forall b gen g k0 ks fuel,
  opened b -> is_u64 gen -> data_ok b 1 -> no_max_gen b 1 -> no_wrap b 1 subvol_last -> gen = 2^64 - 1 ->
  keys_between b 1 subvol_first subvol_last (k0 :: ks) -> ObjectID k0 = 256 ->
  (forall k g' v, In k (k0 :: ks) -> is_u64 g' -> stored b 1 k g' v -> g' = g) ->
  (length b + 1 < fuel)%nat ->
  exists out, range_collect fuel b (Subvolumes b gen) = Ok out /\
    Forall2 (fun k e => exists v d, fst e = newIndexKey 1 k g /\ stored b 1 k g v /\ valueData v = Ok d /\ snd e = sbytes d) (k0 :: ks) out.
Proof.
  intros b gen g k0 ks fuel Op Hgen ND NM NA Hg KB Hk0 HU Hfuel. pose proof Op as [W _].
  assert (H1 : is_u64 1) by (unfold is_u64; lia). assert (H1m : 1 < max64) by (unfold max64; lia).
  pose proof (range_exact b gen 1 (KF2 RootItemKey FirstFreeObjectID) (KL2 RootItemKey LastFreeObjectID) fuel (k0 :: ks) collect_body []
     Op H1 H1m wf_svf wf_svl Hgen ND NM NA (or_introl Hg) KB Hfuel) as H.
  assert (HT : KType k0 = 132).
  { destruct (proj1 (proj2 KB k0) (or_introl eq_refl)) as (((A1 & A2 & A3) & _) & L1 & L2).
    unfold key_le, key_lt, subvol_first, subvol_last in *. cbn [ObjectID KType KOffset] in *.
    destruct L1 as [<-|L1]; [reflexivity|]. destruct L2 as [->|L2]; [reflexivity|]. lia. }
  change (KType (KF2 RootItemKey FirstFreeObjectID)) with 132 in H. change (ObjectID (KF2 RootItemKey FirstFreeObjectID)) with 256 in H.
  cbv beta iota in H. rewrite HT, Hk0, !Z.eqb_refl in H. cbn [andb] in H. destruct H as (g' & v & (Hst & Hg' & _) & H).
  assert (g' = g) by (apply (HU k0 g' v); [left; reflexivity|assumption|assumption]). subst g'.
  unfold range_collect, Subvolumes. change RootTreeObjectID with 1. rewrite H.
  assert (HW : forall k, In k (k0 :: ks) -> wf_Key k) by (intros k Hk; apply (proj2 KB) in Hk; apply Hk).
  rewrite fold_collect by (apply (yields_ok b 1 g (k0 :: ks) W Hg' HW ND)).
  eexists. split; [reflexivity|]. cbn [app].
  assert (HS : forall k, In k (k0 :: ks) -> exists v, stored b 1 k g v).
  { intros k Hk. pose proof Hk as Hk2. apply (proj2 KB) in Hk2 as ((_ & g2 & v2 & Hg2 & Hst2) & _). exists v2.
    rewrite (HU k g2 v2 Hk Hg2 Hst2) in Hst2. exact Hst2. }
  clear -HS HW W ND Hg'. revert HS HW. generalize (k0 :: ks) as l. induction l as [|k l IH]; intros HS HW; [constructor|].
  cbn [yields]. destruct (HS k (or_introl eq_refl)) as [v Hst]. pose proof Hst as G. apply get_In in G; [|exact W]. rewrite G. cbn [map fst snd].
  constructor; [|apply IH; intros; [apply HS|apply HW]; right; assumption].
  destruct (ND _ _ _ (HW k (or_introl eq_refl)) Hg' Hst) as [d Hd]. exists v, d. unfold vdata. cbn [fst snd]. rewrite Hd. auto.
Qed.
(** without subvolume 256 nothing is listed, whatever other subvolumes exist *)
Theorem C22_needs_256_partial : forall b gen fuel,
  opened b -> is_u64 gen -> data_ok b 1 -> no_max_gen b 1 -> no_wrap b 1 subvol_last -> gen = 2^64 - 1 ->
  (forall k, present b 1 k -> KType k = 132 -> ObjectID k <> 256) ->
  (length b + 1 < fuel)%nat ->
  range_collect fuel b (Subvolumes b gen) = Ok [].
Proof.
  intros b gen fuel Op Hgen ND NM NA Hg Hno Hfuel. pose proof Op as [W _].
  assert (H1 : is_u64 1) by (unfold is_u64; lia). assert (H1m : 1 < max64) by (unfold max64; lia).
  destruct (keys_between_exists b 1 subvol_first subvol_last W H1 wf_svf wf_svl) as (ks & KB & _).
  pose proof (range_exact b gen 1 (KF2 RootItemKey FirstFreeObjectID) (KL2 RootItemKey LastFreeObjectID) fuel ks collect_body []
     Op H1 H1m wf_svf wf_svl Hgen ND NM NA (or_introl Hg) KB Hfuel) as H.
  assert (HK : key_lt (KL2 RootItemKey LastFreeObjectID) KL0) by (unfold key_lt; left; reflexivity).
  unfold range_collect, Subvolumes. change RootTreeObjectID with 1. destruct ks as [|k ks]; [exact (H HK)|].
  destruct ((KType k =? KType (KF2 RootItemKey FirstFreeObjectID)) && (ObjectID k =? ObjectID (KF2 RootItemKey FirstFreeObjectID))) eqn:E; [|exact (H HK)].
  exfalso. apply andb_true_iff in E as [E1 E2]. apply Z.eqb_eq in E1, E2.
  apply (Hno k); [|exact E1|exact E2]. apply (proj2 KB k). left; reflexivity.
Qed.
Definition b22 := mkb [(1, mkKey 257 132 0, 7, itemv [x01])].
Theorem C22_refuted : exists b k, opened b /\ present b 1 k /\ key_le subvol_first k /\ key_le k subvol_last /\
  forall fuel, (3 < fuel)%nat -> range_collect fuel b (Subvolumes b (2^64 - 1)) = Ok [].
Proof.
  exists b22, (mkKey 257 132 0). split; [apply opened_ok; vm_compute; reflexivity|].
  split; [split; [unfold wf_Key, is_u64, is_u8; cbn; lia|]; exists 7, (itemv [x01]); split; [unfold is_u64; lia|unfold stored; vm_compute; auto]|].
  split; [right; unfold key_lt, subvol_first; cbn; lia|]. split; [right; unfold key_lt, subvol_last; cbn; lia|].
  intros fuel Hfuel. do 3 (destruct fuel as [|fuel]; [lia|]). vm_compute. reflexivity.
Qed.
Definition b22u := mkb [(1, mkKey 256 132 0, 7, itemv [x01]); (1, mkKey 257 132 9, 7, itemv [x02])].
Example C22_ex : opened b22u /\ data_ok b22u 1 /\ no_max_gen b22u 1 /\ no_alias b22u 1 /\
  keys_between b22u 1 subvol_first subvol_last [mkKey 256 132 0; mkKey 257 132 9].
Proof.
  assert (Op : opened b22u) by (apply opened_ok; vm_compute; reflexivity).
  assert (H1 : is_u64 1) by (unfold is_u64; lia).
  split; [exact Op|]. split; [apply data_ok_ok; [exact H1|vm_compute; reflexivity]|]. split; [apply no_max_gen_ok; [exact H1|vm_compute; reflexivity]|].
  split; [apply no_alias_ok; [exact H1|apply Op|vm_compute; reflexivity]|].
  split; [repeat constructor; unfold key_lt; cbn; lia|]. intros k. split.
  - intros [<-|[<-|[]]]; (split; [split; [unfold wf_Key, is_u64, is_u8; cbn; lia|]|]).
    + exists 7, (itemv [x01]). split; [unfold is_u64; lia|unfold stored; vm_compute; auto].
    + split; [left; reflexivity|right; unfold key_lt, subvol_last; cbn; lia].
    + exists 7, (itemv [x02]). split; [unfold is_u64; lia|unfold stored; vm_compute; auto].
    + split; right; unfold key_lt, subvol_first, subvol_last; cbn; lia.
  - intros ((Hk & g & v & Hg & Hst) & _). destruct (ik_built 1 k g) as (A & _ & _ & _ & _ & B); [unfold wf_tuple; auto|].
    assert (HA : forall e, In e b22u -> ik_Owner (fst e) = 1 -> In (ik_Key (fst e)) [mkKey 256 132 0; mkKey 257 132 9]).
    { intros e He. vm_compute in He. destruct He as [<-|[<-|[<-|[]]]]; vm_compute; auto. intros; discriminate. }
    specialize (HA _ Hst A). cbn [fst] in HA. rewrite B in HA. exact HA.
Qed.
Print Assumptions C22_uniform_partial. Print Assumptions C22_needs_256_partial. Print Assumptions C22_refuted.

(** ** C23 *)
Definition full_collect (fuel : nat) (b : bucket) (gen : Z) : Res (list (list byte * list byte)) :=
  ' (r, d) <- mkFullRange b gen ;;
  full_loop fuel r d (fun r d acc => match f_key r with Some k => Ok (acc ++ [(k, sbytes d)]) | None => Panic end) [].
Lemma full_loop_collect m es : forall e0 d before acc fuel,
  (forall e, In e (e0 :: es) -> bytes_ltb (fst e) metadataKey = true /\ exists d, valueData (snd e) = Ok d) -> valueData (snd e0) = Ok d ->
  (length es + 2 < fuel)%nat ->
  full_loop fuel (mkFull (before, e0 :: es ++ [(metadataKey, m)]) metadataKey) d
    (fun r d acc => match f_key r with Some k => Ok (acc ++ [(k, sbytes d)]) | None => Panic end) acc
  = Ok (acc ++ map (fun e => (fst e, vdata (snd e))) (e0 :: es) ++ [(metadataKey, [])]).
Proof.
  assert (LB : forall x, bytes_ltb x metadataKey = true -> bytes_leb x metadataKey = true /\ bytes_eqb x metadataKey = false).
  { intros x. unfold bytes_ltb, bytes_leb, bytes_eqb. destruct (bytes_cmp x metadataKey); auto; discriminate. }
  induction es as [|e1 es IH]; intros [k0 v0] d before acc fuel Hall Hd Hfuel.
  - destruct (Hall (k0, v0) (or_introl eq_refl)) as [Hlt _]. cbn [fst snd] in *. destruct (LB _ Hlt) as [HB HE].
    destruct fuel as [|fuel]; [lia|]. cbn [full_loop]. unfold Full_HasNext, f_key. cbn [f_cur cur_entry snd option_map fst f_end app].
    rewrite HB. cbn [rbind]. unfold Full_Next. cbn [f_cur cur_next snd fst f_end app cur_entry].
    replace (bytes_eqb metadataKey metadataKey) with true by (symmetry; apply bytes_eqb_eq; reflexivity). cbn [rbind].
    destruct fuel as [|fuel]; [cbn in Hfuel; lia|]. cbn [full_loop]. unfold Full_HasNext, f_key. cbn [f_cur cur_entry snd option_map fst f_end].
    replace (bytes_leb metadataKey metadataKey) with true by (vm_compute; reflexivity). cbn [rbind].
    unfold Full_Next. cbn [f_cur cur_next snd fst f_end app cur_entry rbind].
    destruct fuel as [|fuel]; [cbn in Hfuel; lia|]. cbn [full_loop]. unfold Full_HasNext, f_key. cbn [f_cur cur_entry snd option_map].
    f_equal. rewrite <- app_assoc. cbn [map app fst snd]. unfold vdata. rewrite Hd. reflexivity.
  - destruct (Hall (k0, v0) (or_introl eq_refl)) as [Hlt _]. cbn [fst snd] in *. destruct (LB _ Hlt) as [HB HE].
    destruct e1 as [k1 v1].
    destruct (Hall (k1, v1) (or_intror (or_introl eq_refl))) as [Hlt1 [d1 Hd1]]. cbn [fst snd] in *. destruct (LB _ Hlt1) as [HB1 HE1].
    destruct fuel as [|fuel]; [lia|]. cbn [full_loop]. unfold Full_HasNext, f_key. cbn [f_cur cur_entry snd option_map fst f_end app].
    rewrite HB. cbn [rbind]. unfold Full_Next. cbn [f_cur cur_next snd fst f_end app cur_entry]. rewrite HE1, Hd1. cbn [rbind].
    rewrite (IH (k1, v1) d1); [|intros e He; apply Hall; right; exact He|exact Hd1|cbn [length] in Hfuel; lia].
    rewrite <- app_assoc. cbn [map app fst snd]. replace (vdata v0) with (sbytes d) by (unfold vdata; rewrite Hd; reflexivity). reflexivity.
Qed.
(** read-only use: every entry once, in order, with its data; the metadata
    record comes last, with no data *)
Theorem C23_all_partial : forall es m fuel, es <> [] ->
  wf_bucket (es ++ [(metadataKey, m)]) ->
  (forall e, In e es -> exists d, valueData (snd e) = Ok d) ->
  (length es + 2 < fuel)%nat ->
  full_collect fuel (es ++ [(metadataKey, m)]) (2^64 - 1) = Ok (map (fun e => (fst e, vdata (snd e))) es ++ [(metadataKey, [])]).
Proof.
  intros es m fuel Hne W HD Hfuel. destruct es as [|[k0 v0] es]; [contradiction|].
  assert (Hlt : forall e, In e ((k0, v0) :: es) -> bytes_ltb (fst e) metadataKey = true).
  { intros e He. destruct (wf_app_inv _ _ W) as (Wa & _ & H). specialize (H e (metadataKey, m) He (or_introl eq_refl)).
    rewrite ltb33 by (try apply newIndexKey_length; apply (wf_len _ e Wa He)). unfold en in H. cbn [fst] in H. lia. }
  destruct (HD (k0, v0) (or_introl eq_refl)) as [d Hd]. cbn [snd] in Hd.
  unfold full_collect, mkFullRange. cbn [app]. rewrite Hd. cbn [rbind].
  change (newIndexKey max64 KL0 (2 ^ 64 - 1)) with metadataKey.
  rewrite (full_loop_collect m es (k0, v0) d []); [reflexivity| |exact Hd|cbn [length] in Hfuel; lia].
  intros e He. split; [exact (Hlt e He)|exact (HD e He)].
Qed.
(** on an index holding nothing but its metadata record, FullRange aborts *)
Theorem C23_empty_refuted : exists b, opened b /\ forall fuel, full_collect fuel b (2^64 - 1) = Panic.
Proof. exists (mkb []). split; [apply opened_ok; vm_compute; reflexivity|]. intros fuel. vm_compute. reflexivity. Qed.
Example C23_ex : exists es m, b19u = es ++ [(metadataKey, m)] /\ es <> [] /\ wf_bucket b19u /\
  (forall e, In e es -> exists d, valueData (snd e) = Ok d).
Proof.
  exists (firstn 4 b19u), (newIndexMetadata (mkOptions false 16384 (repeat x07 16) 0 false)).
  split; [vm_compute; reflexivity|]. split; [discriminate|]. split; [apply C19_ex|].
  intros e He. assert (H : forallb (fun e => match valueData (snd e) with Ok _ => true | _ => false end) (firstn 4 b19u) = true) by (vm_compute; reflexivity).
  rewrite forallb_forall in H. specialize (H e He). destruct (valueData (snd e)); [eauto|discriminate|discriminate].
Qed.
Print Assumptions C23_all_partial. Print Assumptions C23_empty_refuted.

(** ** C62 *)
Lemma search_spec f p : forall fuel i j n, 0 <= i <= j -> j <= n -> (Z.to_nat (j - i) < fuel)%nat ->
  (forall h, 0 <= h < n -> f h = Ok (p h)) ->
  (forall x y, 0 <= x <= y -> y < n -> p x = true -> p y = true) ->
  (forall x, 0 <= x < i -> p x = false) -> (forall x, j <= x < n -> p x = true) ->
  exists r, search_loop fuel i j f = Ok r /\ 0 <= r <= n /\ (forall x, 0 <= x < r -> p x = false) /\ (forall x, r <= x < n -> p x = true).
Proof.
  induction fuel as [|fuel IH]; intros i j n Hij Hjn Hfuel Hf Hm Hlo Hhi; [lia|]. cbn [search_loop].
  destruct (i <? j) eqn:E.
  - set (h := (i + j) / 2) in *. assert (Hh : i <= h < j) by (unfold h; lia).
    rewrite Hf by lia. cbn [rbind]. destruct (p h) eqn:P.
    + apply (IH i h n); try assumption; try lia. intros x Hx. destruct (Z_lt_dec x j); [|apply Hhi; lia]. apply (Hm h x); try lia. exact P.
    + apply (IH (h + 1) j n); try assumption; try lia. intros x Hx. destruct (Z_lt_dec x h).
      * destruct (p x) eqn:Px; [|reflexivity]. rewrite (Hm x h) in P by (try lia; exact Px). discriminate.
      * assert (x = h) by lia. subst; exact P.
  - exists i. split; [reflexivity|]. split; [lia|]. split; [exact Hlo|]. intros x Hx. apply Hhi. lia.
Qed.
(** f need only be defined on [0, n): nothing else is probed *)
Theorem C62_search : forall n f p, 0 <= n ->
  (forall h, 0 <= h < n -> f h = Ok (p h)) ->
  (forall x y, 0 <= x <= y -> y < n -> p x = true -> p y = true) ->
  exists r, sort_Search n f = Ok r /\ 0 <= r <= n /\ (forall x, 0 <= x < r -> p x = false) /\ (forall x, r <= x < n -> p x = true).
Proof.
  intros n f p Hn Hf Hm. unfold sort_Search. apply search_spec; try assumption; try lia.
Qed.
Example C62_ex : forall x y, 0 <= x <= y -> y < 10 -> (4 <=? x) = true -> (4 <=? y) = true.
Proof. intros; lia. Qed.
Print Assumptions C62_search.

(** ** C28 *)
Lemma sm_index_ok m i e : nth_error m (Z.to_nat i) = Some e -> 0 <= i -> sm_index m i = Ok e.
Proof.
  intros H Hi. assert (L : (Z.to_nat i < length m)%nat) by (apply nth_error_Some; congruence).
  unfold sm_index. replace ((0 <=? i) && (i <? zlen m)) with true by (unfold zlen; lia). rewrite H. reflexivity.
Qed.
(** a sorted stripe map: the entry with the greatest start <= logical is used *)
Lemma Physical_in_spec a e c logical :
  StronglySorted (fun x y => sm_logical x < sm_logical y) (a ++ e :: c) ->
  sm_logical e <= logical -> (forall x, In x c -> logical < sm_logical x) ->
  Physical_in (a ++ e :: c) logical = Ok (sm_devID e, u64 (u64 (sm_offset e + logical) - sm_logical e)).
Proof.
  intros Hs Hle Hgt. set (m := a ++ e :: c) in *. unfold Physical_in.
  assert (Hzm : zlen m = zlen a + 1 + zlen c) by (unfold m; rewrite zlen_app; unfold zlen; cbn [length]; lia).
  set (p := fun i => match nth_error m (Z.to_nat i) with Some x => logical <=? sm_logical x | None => true end).
  assert (Hnth : forall i, 0 <= i < zlen m -> exists x, nth_error m (Z.to_nat i) = Some x).
  { intros i Hi. destruct (nth_error m (Z.to_nat i)) as [x|] eqn:E; [eauto|]. apply nth_error_None in E. unfold zlen in Hi. lia. }
  assert (Hf : forall h, 0 <= h < zlen m -> (x <- sm_index m h ;; Ok (logical <=? sm_logical x)) = Ok (p h)).
  { intros h Hh. destruct (Hnth h Hh) as [x Hx]. rewrite (sm_index_ok m h x Hx) by lia. unfold p. rewrite Hx. reflexivity. }
  assert (Hmono : forall i j x y, (i < j)%nat -> nth_error m i = Some x -> nth_error m j = Some y -> sm_logical x < sm_logical y).
  { clear -Hs. generalize dependent m. intros m Hs. induction Hs as [|z l Hs IH HF]; intros i j x y Hij Hx Hy; [destruct i; discriminate|].
    destruct i as [|i], j as [|j]; try lia.
    - cbn in Hx, Hy. injection Hx as <-. apply nth_error_In in Hy. rewrite Forall_forall in HF. exact (HF y Hy).
    - cbn in Hx, Hy. apply (IH i j); [lia|assumption|assumption]. }
  assert (Hm : forall x y, 0 <= x <= y -> y < zlen m -> p x = true -> p y = true).
  { intros x y Hxy Hy Hp. destruct (Z.eq_dec x y) as [->|Hne]; [exact Hp|].
    destruct (Hnth x ltac:(lia)) as [vx Hx]. destruct (Hnth y ltac:(lia)) as [vy Hvy]. unfold p in *. rewrite Hx in Hp. rewrite Hvy.
    pose proof (Hmono (Z.to_nat x) (Z.to_nat y) vx vy ltac:(lia) Hx Hvy). lia. }
  destruct (C62_search (zlen m) (fun i => x <- sm_index m i ;; Ok (logical <=? sm_logical x)) p (Zle_0_nat _) Hf Hm) as (r & Hr & Hrr & Hlo & Hhi).
  rewrite Hr. cbn [rbind].
  assert (Pa : 0 <= zlen a < zlen m) by (unfold zlen in *; lia).
  assert (Ea : nth_error m (Z.to_nat (zlen a)) = Some e).
  { unfold m, zlen. rewrite Nat2Z.id. rewrite nth_error_app2 by lia. rewrite Nat.sub_diag. reflexivity. }
  assert (Hnext : forall x, 0 <= x -> zlen a < x < zlen m -> p x = true).
  { intros x H0 Hx. unfold p. destruct (Hnth x ltac:(lia)) as [v Hv]. rewrite Hv.
    assert (In v c). { unfold m in Hv. rewrite nth_error_app2 in Hv by (unfold zlen in *; lia).
      replace (Z.to_nat x - length a)%nat with (S (Z.to_nat x - length a - 1)) in Hv by (unfold zlen in *; lia). cbn in Hv. apply nth_error_In in Hv; exact Hv. }
    specialize (Hgt v H). lia. }
  assert (Pe : p (zlen a) = (logical <=? sm_logical e)) by (unfold p; rewrite Ea; reflexivity).
  destruct (Z.eq_dec (sm_logical e) logical) as [Heq|Hneq].
  - (* exact hit *)
    assert (r = zlen a).
    { assert (p (zlen a) = true) by (rewrite Pe; lia).
      destruct (Z_lt_dec (zlen a) r) as [H1|H1]; [rewrite Hlo in H by lia; discriminate|].
      destruct (Z.eq_dec r (zlen a)) as [|H2]; [assumption|]. exfalso.
      destruct (Hnth r ltac:(lia)) as [v Hv]. pose proof (Hhi r ltac:(lia)) as Hp. unfold p in Hp. rewrite Hv in Hp.
      pose proof (Hmono (Z.to_nat r) (Z.to_nat (zlen a)) v e ltac:(lia) Hv Ea). lia. }
    subst r. replace (zlen a =? zlen m) with false by lia.
    destruct (0 <? zlen a); cbn [rbind].
    + rewrite (sm_index_ok m _ e Ea) by lia. cbn [rbind]. rewrite Heq, Z.eqb_refl. cbn [negb rbind].
      rewrite (sm_index_ok m _ e Ea) by lia. cbn [rbind]. rewrite <- Heq at 2. rewrite Heq. reflexivity.
    + rewrite (sm_index_ok m _ e Ea) by lia. cbn [rbind]. reflexivity.
  - assert (r = zlen a + 1).
    { assert (p (zlen a) = false) by (rewrite Pe; lia).
      destruct (Z_le_dec r (zlen a)) as [H1|H1]; [rewrite Hhi in H by lia; discriminate|].
      destruct (Z.eq_dec r (zlen a + 1)) as [|H2]; [assumption|]. exfalso.
      pose proof (Hlo (zlen a + 1) ltac:(lia)) as Hp. rewrite Hnext in Hp by lia. discriminate. }
    subst r. 
    assert (ADJ : (if zlen a + 1 =? zlen m then Ok true
        else if 0 <? zlen a + 1 then x <- sm_index m (zlen a + 1) ;; Ok (negb (sm_logical x =? logical)) else Ok false) = Ok true).
    { destruct (zlen a + 1 =? zlen m) eqn:E; [reflexivity|]. replace (0 <? zlen a + 1) with true by lia.
      destruct (Hnth (zlen a + 1) ltac:(lia)) as [v Hv]. rewrite (sm_index_ok m _ v Hv) by lia. cbn [rbind].
      pose proof (Hmono (Z.to_nat (zlen a)) (Z.to_nat (zlen a + 1)) e v ltac:(lia) Ea Hv).
      assert (In v c). { unfold m in Hv. rewrite nth_error_app2 in Hv by (unfold zlen in *; lia).
        replace (Z.to_nat (zlen a + 1) - length a)%nat with 1%nat in Hv by (unfold zlen in *; lia). cbn in Hv. destruct c as [|c0 c]; [discriminate|]. injection Hv as ->. left; reflexivity. }
      specialize (Hgt v H0). replace (sm_logical v =? logical) with false by lia. reflexivity. }
    rewrite ADJ. cbn [rbind]. replace (zlen a + 1 - 1) with (zlen a) by lia.
    rewrite (sm_index_ok m _ e Ea) by lia. reflexivity.
Qed.

(** a stored value holds the given packed structure as its item data *)
Definition holds (v : list byte) (fs : list fld) : Prop := exists d, valueData v = Ok d /\ carries d fs.
(** the chunks of an index: start addresses ascending, one generation, at least
    one stripe each *)
Definition chunk_map (b : bucket) (g : Z) (cs : list (Z * d_chunk)) : Prop :=
  offsets_of b 3 228 256 (map fst cs) /\
  (forall f g' v, is_u64 f -> is_u64 g' -> stored b 3 (mkKey 256 228 f) g' v -> g' = g) /\
  (forall f c, In (f, c) cs -> ch_stripes c <> [] /\ zlen (ser (chunk_fields c)) < 65536 /\
     forall v, stored b 3 (mkKey 256 228 f) g v -> holds v (chunk_fields c)).
Definition first_stripe (c : d_chunk) : d_stripe := hd {| st_devid := 0; st_offset := 0; st_dev_uuid := [] |} (ch_stripes c).
Definition entry_of (x : Z * d_chunk) : stripeMapEntry := mkStripe (fst x) (st_devid (first_stripe (snd x))) (st_offset (first_stripe (snd x))).
Lemma stripe_fold b g E : wf_bucket b -> is_u64 g -> forall cs acc,
  (forall f c, In (f, c) cs -> is_u64 f /\ ch_stripes c <> [] /\ zlen (ser (chunk_fields c)) < 65536 /\ (exists v, stored b 3 (mkKey 256 228 f) g v) /\
     forall v, stored b 3 (mkKey 256 228 f) g v -> holds v (chunk_fields c)) ->
  fold_range stripe_body E (yields b 3 g (map (fun f => mkKey 256 228 f) (map fst cs))) acc = Ok (acc ++ map entry_of cs).
Proof.
  intros W Hg. induction cs as [|[f c] cs IH]; intros acc H; cbn [map yields fold_range fst].
  - rewrite app_nil_r. reflexivity.
  - destruct (H f c (or_introl eq_refl)) as (Hf & Hns & Hz & [v Hst] & Hh). pose proof Hst as G. apply get_In in G; [|exact W]. rewrite G.
    cbn [fold_range]. destruct (Hh v Hst) as (d & Hd & Hc). rewrite Hd. cbn [rbind].
    destruct (C06_chunk c d Hc) as [(_ & _ & _ & _ & _ & _ & _ & HN & _) HS].
    unfold stripe_body. rewrite HN. cbn [rbind].
    destruct (ch_stripes c) as [|st sts] eqn:Es; [contradiction|].
    replace (zlen (st :: sts) =? 0) with false by (unfold zlen; cbn [length]; lia).
    destruct (HS Hz 0%nat st) as (sub & HSub & H1 & H2 & _); [try rewrite Es; reflexivity|].
    change (Z.of_nat 0) with 0 in HSub. rewrite HSub. cbn [rbind r_key]. rewrite H1, H2. cbn [rbind].
    rewrite IH by (intros f' c' Hin; apply H; right; exact Hin). rewrite <- app_assoc. cbn [app].
    destruct (ik_built 3 (mkKey 256 228 f) g) as (_ & _ & _ & _ & _ & B); [unfold wf_tuple, wf_Key, is_u64, is_u8 in *; cbn; auto; repeat split; lia|].
    rewrite B. unfold entry_of at 2. cbn [fst snd KOffset]. unfold first_stripe. rewrite Es. reflexivity.
Qed.
(** C28 as stated, for an index whose chunk items are of one generation *)
Theorem C28_physical_partial : forall b g cs pre f c post logical fuel cache,
  opened b -> data_ok b 3 -> no_max_gen b 3 -> no_wrap b 3 (mkKey 256 228 (2^64 - 1)) -> is_u64 g ->
  chunk_map b g cs -> cs = pre ++ (f, c) :: post ->
  f <= logical < f + ch_length c ->
  (forall f' c', In (f', c') post -> f + ch_length c <= f') ->
  0 <= st_offset (first_stripe c) -> st_offset (first_stripe c) + logical < 2^64 ->
  (length b + 1 < fuel)%nat ->
  (cache = None \/ exists l, exists r, Physical fuel b (2^64 - 1) None l = Ok r /\ cache = Some (fst r)) ->
  exists m, Physical fuel b (2^64 - 1) cache logical =
    Ok (m, (st_devid (first_stripe c), st_offset (first_stripe c) + (logical - f))).
Proof.
  intros b g cs pre f c post logical fuel cache Op ND NM NA Hg (HO & HU & HC) Hcs Hlog Hpost Hso Hsum Hfuel Hcache.
  pose proof Op as [W _]. assert (H3 : is_u64 3) by (unfold is_u64; lia).
  assert (HB : build_stripeMap fuel b (2^64 - 1) = Ok (map entry_of cs)).
  { unfold build_stripeMap, Chunks, RangeAll. change ChunkTreeObjectID with 3. change (KF2 ChunkItemKey FirstFreeObjectID) with (mkKey 256 228 0).
    change (KL2 ChunkItemKey FirstFreeObjectID) with (mkKey 256 228 max64).
    assert (W1 : wf_Key (mkKey 256 228 0)) by (unfold wf_Key, is_u64, is_u8; cbn; lia).
    assert (W2 : wf_Key (mkKey 256 228 max64)) by (unfold wf_Key, is_u64, is_u8, max64; cbn; lia).
    pose proof (range_exact b (2^64 - 1) 3 (mkKey 256 228 0) (mkKey 256 228 max64) fuel (map (fun f => mkKey 256 228 f) (map fst cs)) stripe_body []
      Op H3 eq_refl W1 W2 max64_u64 ND NM NA (or_introl eq_refl)
      (offs_keys b 3 228 256 (map fst cs) ltac:(unfold is_u8; lia) ltac:(unfold is_u64; lia) HO) Hfuel) as HR.
    assert (HF := fun E => stripe_fold b g E W Hg cs []).
    destruct cs as [|[f0 c0] cs]; [destruct pre; discriminate|]. cbn [map fst KType ObjectID] in HR. rewrite !Z.eqb_refl in HR. cbn [andb] in HR.
    destruct HR as (g' & v' & (Hst & Hg' & _) & HR).
    assert (Hf0 : forall f1 c1, In (f1, c1) ((f0, c0) :: cs) -> is_u64 f1 /\ exists v, stored b 3 (mkKey 256 228 f1) g v).
    { intros f1 c1 Hin. assert (Hi : In f1 (map fst ((f0, c0) :: cs))) by (apply in_map_iff; exists (f1, c1); auto).
      apply (proj2 HO) in Hi as ((_ & _ & Hu) & g2 & v2 & Hg2 & Hst2). split; [exact Hu|]. exists v2.
      rewrite (HU f1 g2 v2 Hu Hg2 Hst2) in Hst2. exact Hst2. }
    assert (g' = g) by (apply (HU f0 g' v'); try assumption; apply (Hf0 f0 c0); left; reflexivity). subst g'.
    rewrite HR. apply HF. intros f1 c1 Hin. destruct (Hf0 f1 c1 Hin) as [A B]. destruct (HC f1 c1 Hin) as (C1 & C2 & C3).
    split; [exact A|]. split; [exact C1|]. split; [exact C2|]. split; [exact B|exact C3]. }
  assert (HP : Physical_in (map entry_of cs) logical = Ok (st_devid (first_stripe c), st_offset (first_stripe c) + (logical - f))).
  { rewrite Hcs, map_app. cbn [map]. rewrite Physical_in_spec.
    - unfold entry_of; cbn [sm_devID sm_offset sm_logical fst snd]. f_equal. f_equal.
      assert (is_u64 f). { assert (Hi : In f (map fst cs)) by (rewrite Hcs, map_app; apply in_or_app; right; left; reflexivity). apply (proj2 HO) in Hi. apply Hi. }
      unfold u64, is_u64 in *. rewrite (Z.mod_small (_ + logical)) by lia. rewrite Z.mod_small by lia. lia.
    - assert (HS : StronglySorted Z.lt (map fst (pre ++ (f, c) :: post))) by (rewrite <- Hcs; apply HO).
      clear -HS. change (entry_of (f, c) :: map entry_of post) with (map entry_of ((f, c) :: post)). rewrite <- map_app.
      revert HS. generalize (pre ++ (f, c) :: post) as l. induction l as [|[x y] l IH]; intros HS; [constructor|].
      cbn [map fst] in *. apply StronglySorted_inv in HS as [HS HF]. constructor; [apply IH; exact HS|]. rewrite Forall_forall in *.
      intros z Hz. apply in_map_iff in Hz as ([x' y'] & <- & Hin). cbn. apply HF. apply in_map_iff. exists (x', y'); auto.
    - cbn [entry_of sm_logical fst]. lia.
    - intros x Hx. apply in_map_iff in Hx as ([x' y'] & <- & Hin). cbn [entry_of sm_logical fst]. specialize (Hpost x' y' Hin). lia. }
  exists (map entry_of cs). unfold Physical.
  assert (HM : match cache with Some m => Ok m | None => build_stripeMap fuel b (2^64 - 1) end = Ok (map entry_of cs)).
  { destruct Hcache as [->|(l & r & Hr & ->)]; [exact HB|]. unfold Physical in Hr. rewrite HB in Hr. cbn [rbind] in Hr.
    destruct (Physical_in (map entry_of cs) l) as [p| |]; cbn [rbind] in Hr; try discriminate. injection Hr as <-. reflexivity. }
  rewrite HM. cbn [rbind]. rewrite HP. reflexivity.
Qed.
(** without chunk items the call aborts *)
Theorem C28_no_chunks_refuted : exists b, opened b /\ forall logical fuel, (2 <= fuel)%nat -> Physical fuel b (2^64 - 1) None logical = Panic.
Proof.
  exists (mkb []). split; [apply opened_ok; vm_compute; reflexivity|]. intros logical fuel Hf. destruct fuel as [|fuel]; [lia|].
  unfold Physical, build_stripeMap, range_for.
  replace (Chunks (mkb []) (2^64 - 1)) with (Ok (mkRange None (newIndexKey 3 (KL2 228 256) (2^64 - 1)) [], nil_data)) by (vm_compute; reflexivity).
  reflexivity.
Qed.
(** an address below the first chunk is mapped relative to it, wrapping around *)
Theorem C28_below_refuted : forall e m logical, 0 <= logical < sm_logical e -> sm_logical e < 2^64 -> 0 <= sm_offset e < 2^64 ->
  StronglySorted (fun x y => sm_logical x < sm_logical y) (e :: m) ->
  Physical_in (e :: m) logical = Ok (sm_devID e, (sm_offset e + logical - sm_logical e) mod 2^64).
Proof.
  intros e m logical Hlt He Ho Hs. unfold Physical_in.
  set (L := e :: m) in *.
  set (p := fun i : Z => match nth_error L (Z.to_nat i) with Some x => logical <=? sm_logical x | None => true end).
  assert (Hp : forall i, 0 <= i < zlen L -> p i = true).
  { intros i Hi. unfold p. destruct (nth_error L (Z.to_nat i)) as [x|] eqn:E; [|reflexivity]. apply nth_error_In in E.
    unfold L in E. destruct E as [->|E]; [lia|]. apply StronglySorted_inv in Hs as [_ HF]. rewrite Forall_forall in HF. specialize (HF x E). cbn beta in HF. lia. }
  assert (Hf : forall h, 0 <= h < zlen L -> (x <- sm_index L h ;; Ok (logical <=? sm_logical x)) = Ok (p h)).
  { intros h Hh. unfold p. destruct (nth_error L (Z.to_nat h)) as [x|] eqn:E; [|apply nth_error_None in E; unfold zlen in Hh; lia].
    rewrite (sm_index_ok L h x E) by lia. reflexivity. }
  destruct (C62_search (zlen L) (fun i => x <- sm_index L i ;; Ok (logical <=? sm_logical x)) p (Zle_0_nat _) Hf) as (r & Hr & Hrr & Hlo & Hhi).
  { intros x y Hxy Hy _. apply Hp. lia. }
  rewrite Hr. cbn [rbind].
  assert (r = 0). { destruct (Z.eq_dec r 0); [assumption|]. pose proof (Hlo 0 ltac:(lia)) as A. rewrite Hp in A; [discriminate|lia]. }
  subst r. replace (0 =? zlen L) with false by (unfold zlen, L; cbn [length]; lia). cbn [rbind]. change (0 <? 0) with false. cbn [rbind].
  rewrite (sm_index_ok L 0 e) by (try reflexivity; lia). cbn [rbind]. unfold u64. do 2 f_equal. 
  rewrite Zminus_mod_idemp_l. reflexivity.
Qed.
(** an address behind the end of a chunk is mapped as well *)
Theorem C28_behind_refuted : forall e logical, sm_logical e <= logical -> 0 <= sm_logical e -> 0 <= sm_offset e -> sm_offset e + logical < 2^64 ->
  Physical_in [e] logical = Ok (sm_devID e, sm_offset e + (logical - sm_logical e)).
Proof.
  intros e logical Hle H0 H1 H2. rewrite (Physical_in_spec [] e []) by (try (repeat constructor; fail); try (intros x []); assumption).
  unfold u64. rewrite (Z.mod_small (_ + logical)) by lia. rewrite Z.mod_small by lia. do 2 f_equal. lia.
Qed.
(** a non-trivial chunk map satisfying the hypotheses *)
Definition ch28 (off : Z) : d_chunk := {| ch_length := 8192; ch_owner := 2; ch_stripe_len := 65536; ch_type := 1; ch_io_align := 4096;
  ch_io_width := 4096; ch_sector_size := 4096; ch_sub_stripes := 1; ch_stripes := [{| st_devid := 1; st_offset := off; st_dev_uuid := repeat x05 16 |}] |}.
Definition b28 := mkb [(3, mkKey 256 228 1000, 7, itemv (ser (chunk_fields (ch28 70000)))); (3, mkKey 256 228 20000, 7, itemv (ser (chunk_fields (ch28 90000))))].
Lemma carries_whole d fs : fits fs -> s_arr d = ser fs -> s_len d = zlen (ser fs) -> carries d fs.
Proof.
  intros Hf Ha Hl. split; [unfold slice_wf; rewrite Ha, Hl; split; [apply Zle_0_nat|apply Z.le_refl]|]. split; [exact Hf|].
  exists []. rewrite app_nil_r. split; [exact Ha|rewrite Hl; apply Z.le_refl].
Qed.
Example C28_ex : opened b28 /\ data_ok b28 3 /\ no_max_gen b28 3 /\ no_alias b28 3 /\ chunk_map b28 7 [(1000, ch28 70000); (20000, ch28 90000)].
Proof.
  assert (Op : opened b28) by (apply opened_ok; vm_compute; reflexivity).
  assert (H3 : is_u64 3) by (unfold is_u64; lia).
  split; [exact Op|]. split; [apply data_ok_ok; [exact H3|vm_compute; reflexivity]|]. split; [apply no_max_gen_ok; [exact H3|vm_compute; reflexivity]|].
  split; [apply no_alias_ok; [exact H3|apply Op|vm_compute; reflexivity]|].
  assert (HS : forall f g v, is_u64 f -> is_u64 g -> stored b28 3 (mkKey 256 228 f) g v ->
    (f = 1000 /\ v = itemv (ser (chunk_fields (ch28 70000))) \/ f = 20000 /\ v = itemv (ser (chunk_fields (ch28 90000)))) /\ g = 7).
  { intros f g v Hf Hg Hst. destruct (ik_built 3 (mkKey 256 228 f) g) as (A & _ & _ & C & D & _).
    { split; [exact H3|split; [|exact Hg]]. unfold wf_Key, is_u64, is_u8 in *; cbn; lia. }
    assert (HA : forall e, In e b28 -> ik_Owner (fst e) = 3 ->
      (ik_Offset (fst e) = 1000 /\ snd e = itemv (ser (chunk_fields (ch28 70000))) \/ ik_Offset (fst e) = 20000 /\ snd e = itemv (ser (chunk_fields (ch28 90000)))) /\ ik_Generation (fst e) = 7).
    { intros e He. vm_compute in He. destruct He as [<-|[<-|[<-|[]]]]; vm_compute; auto; intros; discriminate. }
    specialize (HA _ Hst A). cbn [fst snd KOffset] in *. rewrite C, D in HA. exact HA. }
  split; [|split].
  - split; [repeat constructor|]. intros f. cbn [map fst]. split.
    + intros [<-|[<-|[]]]; (split; [unfold wf_Key, is_u64, is_u8; cbn; lia|]).
      * exists 7, (itemv (ser (chunk_fields (ch28 70000)))). split; [unfold is_u64; lia|unfold stored; vm_compute; auto].
      * exists 7, (itemv (ser (chunk_fields (ch28 90000)))). split; [unfold is_u64; lia|unfold stored; vm_compute; auto].
    + intros ((_ & _ & Hf) & g & v & Hg & Hst). destruct (HS f g v Hf Hg Hst) as [[[-> _]|[-> _]] _]; cbn; auto.
  - intros f g v Hf Hg Hst. apply (HS f g v Hf Hg Hst).
  - assert (Hhold : forall off, off = 70000 \/ off = 90000 -> holds (itemv (ser (chunk_fields (ch28 off)))) (chunk_fields (ch28 off))).
    { intros off [->| ->]; (eexists; split; [vm_compute; reflexivity|]); apply carries_whole; try (vm_compute; reflexivity); apply fits_b; vm_compute; reflexivity. }
    intros f c [[= <- <-]|[[= <- <-]|[]]]; (split; [discriminate|]; split; [vm_compute; reflexivity|]); intros v Hst.
    + destruct (HS 1000 7 v ltac:(unfold is_u64; lia) ltac:(unfold is_u64; lia) Hst) as [[[_ ->]|[E _]] _]; [apply Hhold; auto|discriminate].
    + destruct (HS 20000 7 v ltac:(unfold is_u64; lia) ltac:(unfold is_u64; lia) Hst) as [[[E _]|[_ ->]] _]; [discriminate|apply Hhold; auto].
Qed.
Print Assumptions C28_physical_partial. Print Assumptions C28_no_chunks_refuted. Print Assumptions C28_below_refuted. Print Assumptions C28_behind_refuted.

(** C96: what each query of the index returns after recon, and the extended attributes a mount shows. *)
From Verif Require Import Go GoProofs Layout LayoutProofs SpecLayout LeafProofs StructProofs PropsLayout KeyFmt KeyProofs Bolt Store StoreProofs SpecStore RangeProofs PropsStore PropsRange Session PropsSession IoUtil Recon PropsRecon PropsReconEx RangeItems.
From Verif Require Import PropsPath ToString Fs Recover SpecFs SpecContent SpecTree SpecDisk DiskProofs PropsDest PropsDisk SpecLoss Rescue PropsRescueRead PropsRescueNode SpecMount PropsMount SpecMountAny PropsMountAny PropsMountAnyDisk SpecGen GenProofs PropsGen.
From Verif Require PropsReconAny.
From Coq Require Import List Sorted ZifyBool ZifyNat ZifyN.
Ltac Zify.zify_post_hook ::= Z.div_mod_to_equations.

(** the items of one type and object id in tree [o] are kept apart from the next tree (C19) *)
Definition kept_apart (is : list insertion) (o t id : Z) : Prop := group is o t id <> [] -> separate is o (mkKey id t (2^64 - 1)).
Definition rows (l : list insertion) : stream := mkStream (map row l) (Ok tt).
(** C96a: by btrfs's numbers: tree 1 root tree, 2 extent tree, 3 chunk tree; item types 1 inode, 24 extended
    attribute, 84 directory entry, 108 file extent, 168 extent, 216 device, 228 chunk *)
Theorem C96_queries : forall id D bs is,
  big_enough D bs -> 101 <= bs -> length id = 16%nat -> id <> repeat x00 16 -> image_items id D bs is -> separated is ->
  exists b ix,
    doScanFS true true PropsRecon.no_faults (file_dev D) bs id None = (Some b, XOk) /\
    OpenReadOnly (Some b) = Ok (Some b, Some ix) /\ ix_tx ix = Some (mkTx false b) /\
    forall rfuel, (length b + 1 < rfuel)%nat -> let gen := ix_Generation ix in
      (forall o i, 0 <= o < 2^64 - 1 -> 0 <= i < 2^64 - 1 ->
         (kept_apart is o 24 i -> stream_of rfuel b (XAttrItems b gen o i) = rows (seen_group is o 24 i)) /\
         stream_of rfuel b (DirItems b gen o i) = rows (seen_group is o 84 i) /\
         stream_of rfuel b (FileExtentItems b gen o i) = rows (seen_group is o 108 i) /\
         FindInodeItem b gen o i = Ok (item_data (item_at is o (mkKey i 1 0))) /\
         FindFileExtentItem b gen o i = Ok (item_data (item_at is o (mkKey i 108 0)))) /\
      stream_of rfuel b (Chunks b gen) = rows (seen_group is 3 228 256) /\
      (kept_apart is 3 216 1 -> stream_of rfuel b (DevItems b gen) = rows (seen_group is 3 216 1)) /\
      stream_of rfuel b (Subvolumes b gen) = rows (seen_subvols is) /\
      (forall nr n, 0 <= nr < 2^64 -> 0 <= n < 2^64 -> FindExtentItem b gen nr n = Ok (item_data (item_at is 2 (mkKey nr 168 n)))).
Proof.
  intros id D bs is HB Hb Hlen Hid HI HO.
  set (o := mkOptions false bs id (2^64 - 1) false). set (m := newIndexMetadata o).
  destruct (open_none bs id Hlen) as (ix0 & HOp). fold o in HOp. fold m in HOp.
  destruct (recon_run id D bs None (Some [(metadataKey, m)]) ix0 HB Hid HOp) as (b0' & E0 & HRun). injection E0 as <-.
  rewrite (trace_items id D bs is HB Hb HI) in HRun. cbn [fst snd] in HRun. destruct (items_wf _ _ _ _ HI) as [W1 W2].
  assert (Op0 : opened [(metadataKey, m)]) by (split; [split; [cbn; auto|repeat constructor]|exists m; left; reflexivity]).
  set (b := fold_left put_ins is [(metadataKey, m)]) in *.
  assert (Op : opened b) by (apply puts_opened; assumption).
  assert (G : get b metadataKey = Some m) by (unfold b; rewrite PropsReconAny.get_metadata_puts by assumption; apply get_In; [apply Op0|left; reflexivity]).
  change m with (md_record 20190809 (u32 (o_BlockSize o)) (o_FSID o) (o_Generation o)) in G.
  destruct (C25_open_existing ro_options b _ _ _ _ (proj1 Op) G) as [(_ & ix & HX & _ & _ & HG & HT & _)|[HN _]]; [unfold is_u64; lia|apply u32_range|exact Hlen| |].
  2:{ destruct HN. split; [lia|]. split; [right; reflexivity|left; reflexivity]. }
  exists b, ix. split; [exact HRun|]. split; [exact HX|]. split; [exact HT|]. intros rfuel Hr. cbv zeta. rewrite HG. change (o_Generation ro_options) with max64.
  assert (HIV := items_value id D bs is HI).
  assert (HV' : forall i, In i is -> insert_value (i_item i) (i_data i) = i_item i ++ i_data i /\ valueData (i_item i ++ i_data i) = Ok (sl (i_data i))) by (intros i Hi; apply HIV; exact Hi).
  assert (HO' : forall i, In i is -> i_owner i < max64) by (intros i Hi; apply HIV; exact Hi).
  assert (HR : forall o1 t i, 0 <= o1 < 2^64 - 1 -> 0 <= i < 2^64 - 1 -> 0 <= t < 256 -> kept_apart is o1 t i -> stream_of rfuel b (RangeAll b max64 o1 t i) = rows (seen_group is o1 t i)).
  { intros o1 t i H1 H2 H3 H4. apply stream_of_items, (group_seen_any is m W1 HV' HO' HO); [unfold max64; lia|unfold is_u64; lia|unfold is_u64; lia|exact H3|exact H4|exact Hr]. }
  assert (HS : forall o1 t i, (t = 84 \/ t = 108 \/ t = 228) -> kept_apart is o1 t i) by (intros o1 t i Ht; exact (proj1 (proj2 (proj2 HO)) o1 t i Ht)).
  assert (HF : forall o1 k, 0 <= o1 < 2^64 - 1 -> wf_Key k -> (x <- FindItem b max64 o1 k ;; item_data_opt x) = Ok (item_data (item_at is o1 k))).
  { intros o1 k H1 Hk. apply (find_at is m W1 HV' HO'); [unfold max64; lia|unfold is_u64; lia|exact Hk]. }
  split; [|split; [|split; [|split]]].
  - intros o1 i H1 H2. split; [intros HA; apply (HR o1 24 i H1 H2 ltac:(lia) HA)|]. split; [apply (HR o1 84 i H1 H2 ltac:(lia)), HS; auto|]. split; [apply (HR o1 108 i H1 H2 ltac:(lia)), HS; auto|].
    split; apply HF; try exact H1; unfold wf_Key, is_u64, is_u8; cbn [ObjectID KType KOffset]; lia.
  - apply (HR 3 228 256); [lia|lia|lia|apply HS; auto].
  - intros HA. apply (HR 3 216 1); [lia|lia|lia|exact HA].
  - apply stream_of_items, (subvol_seen is m W1 HV' HO' HO). exact Hr.
  - intros nr n H1 H2. apply (HF 2 (mkKey nr 168 n)); [lia|]. unfold wf_Key, is_u64, is_u8; cbn [ObjectID KType KOffset]; lia.
Qed.
Print Assumptions C96_queries.

(** ** extended attributes *)
(** an item packs the attributes whose names have one hash *)
Definition packs (i : insertion) (xs : list d_dir_item) : Prop :=
  i_data i = ser (flat_map dir_item_fields xs) /\ fits (flat_map dir_item_fields xs) /\ xs <> [] /\
  Forall (fun x => zlen (di_name x) <= 255 /\ 101 + 25 + zlen (ser (dir_item_fields x)) <= 65536) xs.
Definition firsts {A} (l : list (list A)) : list A := flat_map (firstn 1) l.
Lemma ser_app a b : ser (a ++ b) = ser a ++ ser b. Proof. apply flat_map_app. Qed.
Lemma packs_are l xss : Forall2 packs l xss -> xattrs_are (rows l) (firsts xss).
Proof.
  intros H. split; [reflexivity|]. cbn [rows st_items]. induction H as [|i xs l xss (H1 & H2 & H3 & H4) _ IH]; [constructor|]. cbn [map]. destruct xs as [|x xs]; [congruence|].
  unfold firsts. cbn [flat_map firstn app]. constructor; [|exact IH]. cbn [row snd]. inversion H4 as [|? ? H5 _]; subst. split; [|exact H5]. cbn [flat_map] in H1, H2. rewrite ser_app in H1.
  split; [split; cbn [sl s_len s_arr]; [apply zlen_nonneg|unfold scap; cbn [s_arr]; lia]|]. split; [apply Forall_app in H2; apply H2|]. exists (ser (flat_map dir_item_fields xs)). cbn [sl s_arr s_len]. rewrite H1. split; [reflexivity|]. rewrite zlen_app. pose proof (zlen_nonneg (ser (flat_map dir_item_fields xs))). lia.
Qed.
(** C96b: the attributes of inode [i] of tree [o] that the mount lists and finds: the first of each item seen *)
Theorem C96_xattrs : forall id D bs is o i xss,
  big_enough D bs -> 101 <= bs -> length id = 16%nat -> id <> repeat x00 16 -> image_items id D bs is -> separated is ->
  0 <= o < 2^64 - 1 -> 0 <= i < 2^64 - 1 -> kept_apart is o 24 i -> Forall2 packs (seen_group is o 24 i) xss ->
  exists b ix,
    doScanFS true true PropsRecon.no_faults (file_dev D) bs id None = (Some b, XOk) /\
    OpenReadOnly (Some b) = Ok (Some b, Some ix) /\ ix_tx ix = Some (mkTx false b) /\
    forall rfuel, (length b + 1 < rfuel)%nat -> let xs := ix_xattrs rfuel b (ix_Generation ix) o i in
      ListXAttr xs = Ok (map di_name (firsts xss)) /\
      (forall name, GetXAttr xs name = match List.find (fun x => bytes_eqb (di_name x) name) (firsts xss) with Some x => Ok (Some (di_data x), OK) | None => Ok (None, ENOATTR) end).
Proof.
  intros id D bs is o i xss HB Hb Hlen Hid HI HO Ho Hi HA HX. destruct (C96_queries id D bs is HB Hb Hlen Hid HI HO) as (b & ix & A1 & A2 & A3 & HQ). exists b, ix. split; [exact A1|]. split; [exact A2|]. split; [exact A3|].
  intros rfuel Hr. cbv zeta. destruct (HQ rfuel Hr) as (HQ1 & _). destruct (HQ1 o i Ho Hi) as (HQ2 & _). unfold ix_xattrs. rewrite (HQ2 HA). pose proof (packs_are _ _ HX) as HP.
  split; [apply C56_list; exact HP|]. intros name. exact (C56_get _ _ name HP).
Qed.
Print Assumptions C96_xattrs.
(** C96c: so all attributes are there when their names have different hashes and their items one generation *)
Theorem C96_all : forall id D bs is o i xs,
  big_enough D bs -> 101 <= bs -> length id = 16%nat -> id <> repeat x00 16 -> image_items id D bs is -> separated is ->
  0 <= o < 2^64 - 1 -> 0 <= i < 2^64 - 1 -> kept_apart is o 24 i -> one_generation (group is o 24 i) ->
  Forall2 (fun i x => packs i [x]) (group is o 24 i) xs -> NoDup (map di_name xs) ->
  exists b ix,
    doScanFS true true PropsRecon.no_faults (file_dev D) bs id None = (Some b, XOk) /\
    OpenReadOnly (Some b) = Ok (Some b, Some ix) /\ ix_tx ix = Some (mkTx false b) /\
    forall rfuel, (length b + 1 < rfuel)%nat -> let l := ix_xattrs rfuel b (ix_Generation ix) o i in
      ListXAttr l = Ok (map di_name xs) /\ (forall x, In x xs -> GetXAttr l (di_name x) = Ok (Some (di_data x), OK)) /\
      (forall name, ~ In name (map di_name xs) -> GetXAttr l name = Ok (None, ENOATTR)).
Proof.
  intros id D bs is o i xs HB Hb Hlen Hid HI HO Ho Hi HA HG HX HN.
  assert (EF : firsts (map (fun x => [x]) xs) = xs) by (clear; induction xs as [|x xs IH]; [reflexivity|]; change (x :: firsts (map (fun x => [x]) xs) = x :: xs); rewrite IH; reflexivity).
  destruct (C96_xattrs id D bs is o i (map (fun x => [x]) xs) HB Hb Hlen Hid HI HO Ho Hi HA) as (b & ix & A1 & A2 & A3 & HQ).
  - rewrite (proj2 (C95_whole is o 24 i) HG). clear -HX. induction HX; constructor; assumption.
  - exists b, ix. split; [exact A1|]. split; [exact A2|]. split; [exact A3|]. intros rfuel Hr. cbv zeta. specialize (HQ rfuel Hr). cbv zeta in HQ. rewrite EF in HQ. destruct HQ as [Q1 Q2]. split; [exact Q1|]. split.
    + intros x Hx. rewrite Q2. assert (E : List.find (fun y => bytes_eqb (di_name y) (di_name x)) xs = Some x).
      { clear -HN Hx. induction xs as [|y xs IH]; [destruct Hx|]. cbn [map] in HN. inversion HN as [|? ? HN1 HN2]; subst. cbn [List.find]. destruct Hx as [->|Hx]; [rewrite (proj2 (bytes_eqb_eq _ _) eq_refl); reflexivity|].
        destruct (bytes_eqb (di_name y) (di_name x)) eqn:EB; [|apply IH; assumption]. apply bytes_eqb_eq in EB. destruct HN1. rewrite EB. apply in_map. exact Hx. }
      rewrite E. reflexivity.
    + intros name Hn. rewrite Q2. destruct (List.find _ xs) as [x|] eqn:EQ; [|reflexivity]. apply find_some in EQ as [H1 H2]. apply bytes_eqb_eq in H2. destruct Hn. rewrite <- H2. apply in_map. exact H1.
Qed.
Print Assumptions C96_all.

(** C69: recon and then recover, from the bytes of the image to the restored tree. *)
From Verif Require Import Go GoProofs Layout LayoutProofs SpecLayout LeafProofs StructProofs PropsLayout KeyFmt KeyProofs Bolt Store StoreProofs SpecStore RangeProofs PropsStore PropsRange Session PropsSession IoUtil Recon PropsRecon PropsReconEx RangeItems.
From Verif Require Import Fs Recover SpecFs SpecContent SpecTree SpecDisk DiskProofs.
From Verif Require Import PropsDest.
From Verif Require TreeRun PropsRecoverDfs PropsRecoverEx.
From Coq Require Import ZifyBool ZifyNat ZifyN.
Ltac Zify.zify_post_hook ::= Z.div_mod_to_equations.

(** ** items of an image carry their data *)
Lemma value_sl item data d : length item = 25%nat -> valueData (item ++ data) = Ok d -> sbytes d = data -> d = sl data.
Proof.
  intros L H E. unfold valueData, Item_Data in H. destruct (Item_Size _) as [n| |]; cbn [rbind] in H; try discriminate.
  unfold go_slice in H. destruct (_ && _) eqn:EC; [|discriminate]. assert (H' : d = mkSlice (skipn (Z.to_nat ItemLen) (s_arr (sl (item ++ data)))) (u32 (ItemLen + n) - ItemLen)) by congruence. subst d. clear H. unfold scap in EC. cbn [sl s_arr] in *. change ItemLen with 25 in *. change (Z.to_nat 25) with 25%nat in *.
  assert (Es : skipn 25 (item ++ data) = data) by (rewrite skipn_app, L, Nat.sub_diag, skipn_O, skipn_all2 by lia; reflexivity).
  unfold sbytes in E. cbn [s_arr s_len] in E. rewrite Es in E |- *. unfold sl. f_equal.
  rewrite zlen_app in EC. unfold zlen at 1 in EC. rewrite L in EC.
  assert (HL : length (firstn (Z.to_nat (u32 (25 + n) - 25)) data) = length data) by (rewrite E; reflexivity). rewrite firstn_length in HL. unfold zlen in *. lia.
Qed.
Lemma contributes_value id bs bl is : contributes id bs bl is -> forall i, In i is -> i_owner i < max64 /\ valueData (i_item i ++ i_data i) = Ok (sl (i_data i)).
Proof.
  intros [bl' _|h es gap OK _ _ _ Ho]; [intros i []|]. destruct OK as (Hh & _ & Hf & HZ & HB).
  assert (HT : forall e, In e es -> zlen (le_data e) <= bs - 101 - 25).
  { intros e He. unfold leaf_block in HZ. rewrite !zlen_app in HZ. pose proof (zlen_nonneg gap). rewrite (zlen_ser (header_fields h)) in HZ by exact Hh. change (sumw (header_fields h)) with 101 in HZ.
    rewrite (zlen_ser _ Hf), sumw_heads in HZ. assert (1 <= zlen es) by (destruct es; [destruct He|rewrite zlen_cons; pose proof (zlen_nonneg es); lia]).
    assert (HC : zlen (le_data e) <= zlen (concat (rev (map le_data es)))).
    { assert (In (le_data e) (rev (map le_data es))) by (rewrite <- in_rev; apply in_map; exact He). clear -H1. induction (rev (map le_data es)) as [|x l IH]; [destruct H1|].
      cbn [concat]. rewrite zlen_app. destruct H1 as [->|H1]; [pose proof (zlen_nonneg (concat l)); lia|]. specialize (IH H1). pose proof (zlen_nonneg x). lia. }
    lia. }
  clear HZ. revert Hf HT. generalize (bs - 101) at 1 3. induction es as [|e es IH]; intros off Hf HT i Hi; cbn [leaf_items] in Hi; [destruct Hi|]. cbv zeta in Hi.
  cbn [leaf_heads] in Hf. cbv zeta in Hf. apply fits_app in Hf as [F1 F2]. destruct Hi as [<-|Hi]; [|apply (IH _ F2); [intros e' He'; apply HT; right; exact He'|exact Hi]].
  cbn [i_owner i_item i_data]. split; [unfold max64; exact Ho|].
  destruct (C16_header_and_data (le_key e) (off - zlen (le_data e)) (le_data e)) as (E & d & Hd & Es); [exact F1|specialize (HT e (or_introl eq_refl)); lia|].
  rewrite E in Hd. rewrite Hd. f_equal. apply (value_sl _ _ _) in Hd; [exact Hd| |exact Es].
  apply Nat2Z.inj. change (zlen (ser (item_fields {| it_key := le_key e; it_offset := off - zlen (le_data e); it_size := zlen (le_data e) |})) = 25). rewrite zlen_ser by exact F1. reflexivity.
Qed.
Lemma items_value id content bs is : image_items id content bs is -> forall i, In i is ->
  i_owner i < max64 /\ insert_value (i_item i) (i_data i) = i_item i ++ i_data i /\ valueData (i_item i ++ i_data i) = Ok (sl (i_data i)).
Proof.
  intros HI i Hi. destruct (items_wf _ _ _ _ HI) as [_ W2]. rewrite Forall_forall in W2. pose proof (insert_value_25 _ (i_data i) (W2 i Hi)) as E.
  destruct HI as (iss & -> & _ & H). apply in_concat in Hi as (l & Hl & Hi). apply In_nth_error in Hl as [k Hk]. destruct (contributes_value _ _ _ _ (H k l Hk) i Hi) as [A B]. auto.
Qed.

(** ** answering like the table is enough *)
Definition fine (o : Z) : Prop := 0 <= o < 2^64 - 1.
Definition agrees (q q' : queries) : Prop :=
  (forall o d, fine o -> fine d -> q_dirItems q' o d = q_dirItems q o d /\ q_inode q' o d = q_inode q o d /\ q_extents q' o d = q_extents q o d /\ q_extent0 q' o d = q_extent0 q o d) /\
  (forall l p, q_physical q l = Ok p -> q_physical q' l = Ok p) /\ q_subvolumes q' = q_subvolumes q.
Section Agree.
  Variables (q q' : queries) (D : list byte).
  Hypothesis HA : agrees q q'.
  (** directory items lead to object ids in range *)
  Hypothesis HL : forall o d e loc, In e (st_items (q_dirItems q o d)) -> DirItem_Location (snd e) = Ok loc -> fine (ObjectID loc).
  Lemma extent_agrees ke x : is_extent q ke x -> is_extent q' ke x.
  Proof using HA.
    destruct ke as [k e]. unfold is_extent. intros [H|[H|(t & n & nr & id & phys & o & H1 & H2 & H3 & H4 & H5 & H6 & H7)]]; [left; exact H|right; left; exact H|].
    right; right. exists t, n, nr, id, phys, o. destruct HA as (_ & HP & _). apply HP in H6. auto 10.
  Qed.
  Lemma file_agrees o i c : fine o -> fine i -> file_shows q D o i c -> file_shows q' D o i c.
  Proof using HA.
    intros Fo Fi (xs & it & A & B & C & E & R). destruct HA as (HQ & _). destruct (HQ o i Fo Fi) as (_ & Q2 & Q3 & _). exists xs, it. rewrite Q2, Q3.
    split; [|auto]. clear -A HA. induction A; constructor; [apply extent_agrees; assumption|assumption].
  Qed.
  Lemma link_agrees o i t : fine o -> fine i -> link_shows q D o i t -> link_shows q' D o i t.
  Proof using HA.
    intros Fo Fi (e & A & B & C). destruct HA as (HQ & HP & _). destruct (HQ o i Fo Fi) as (_ & _ & _ & Q4). exists e. rewrite Q4. split; [exact A|]. split; [|exact C].
    destruct B as [B|(t' & n & nr & id & phys & o' & H1 & H2 & H3 & H4 & H5 & H6 & H7)]; [left; exact B|]. right. exists t', n, nr, id, phys, o'. apply HP in H6. auto 10.
  Qed.
  Definition leads (l : list (list byte * slice)) : Prop := forall e loc, In e l -> DirItem_Location (snd e) = Ok loc -> fine (ObjectID loc).
  (** what is asked of the files and links *)
  Variables A A' : ask.
  Hypothesis HAf : forall o i c, fine o -> fine i -> ask_file A o i c -> ask_file A' o i c.
  Hypothesis HAl : forall o i t, fine o -> fine i -> ask_link A o i t -> ask_link A' o i t.
  Lemma shows_agree :
    (forall o d kids ks, dir_shape q A o d kids ks -> fine o -> fine d -> dir_shape q' A' o d kids ks) /\
    (forall o l kids ks, list_shape q A o l kids ks -> fine o -> leads l -> list_shape q' A' o l kids ks).
  Proof using HA HL HAf HAl.
    apply (TreeRun.shows_mutind q A (fun o d kids ks => fine o -> fine d -> dir_shape q' A' o d kids ks) (fun o l kids ks => fine o -> leads l -> list_shape q' A' o l kids ks)).
    - intros o d kids ks E _ IH Fo Fd. destruct HA as (HQ & _). destruct (HQ o d Fo Fd) as (Q1 & _). constructor; rewrite Q1; [exact E|]. apply IH; [exact Fo|].
      intros e loc He Hloc. exact (HL o d e loc He Hloc).
    - intros o _ _. constructor.
    - intros o k di l n loc c kids ks S T F N NI _ IH Fo Hl. econstructor; [exact S|exact T| |exact N|exact NI|].
      + apply HAf; [exact Fo| |exact F]. apply (Hl (k, di) loc (or_introl eq_refl)). apply S.
      + apply IH; [exact Fo|]. intros e loc' He. apply Hl. right. exact He.
    - intros o k di l n loc t kids ks S T F N NI _ IH Fo Hl. econstructor; [exact S|exact T| |exact N|exact NI|].
      + apply HAl; [exact Fo| |exact F]. apply (Hl (k, di) loc (or_introl eq_refl)). apply S.
      + apply IH; [exact Fo|]. intros e loc' He. apply Hl. right. exact He.
    - intros o k di l n o' d' sub kids ks1 ks2 S ND _ IH1 N NI _ IH2 Fo Hl. econstructor; [exact S|exact ND| |exact N|exact NI|].
      + destruct ND as (nm & t & loc & _ & _ & _ & Hloc & HK). pose proof (Hl (k, di) loc (or_introl eq_refl) Hloc) as FL.
        destruct HK as [[_ E]|(_ & _ & E)]; injection E as -> ->; apply IH1; try assumption. unfold fine. change FirstFreeObjectID with 256. lia.
      + apply IH2; [exact Fo|]. intros e loc' He. apply Hl. right. exact He.
    - intros o k di l n t loc kids ks S T T1 T2 T3 _ IH Fo Hl. eapply shows_other; eauto. apply IH; [exact Fo|]. intros e loc' He. apply Hl. right. exact He.
  Qed.
  Lemma subvols_agree l vis kids : (forall e, In e l -> fine (ObjectID (ik_Key (fst e)))) -> subvols_shape q A l vis kids -> subvols_shape q' A' l vis kids.
  Proof using HA HL HAf HAl.
    intros Hl H. induction H as [vis|k d l vis kids Hin _ IH|k d l vis o n sub ks kids Eo En Hv HS Hks HND Hnin _ IH].
    - constructor.
    - apply subs_seen; [exact Hin|]. apply IH. intros e He. apply Hl. right. exact He.
    - apply subs_new with (o := o) (ks := ks); try assumption; [|apply IH; intros e He; apply Hl; right; exact He].
      apply (proj1 shows_agree); [exact HS| |unfold fine; change FirstFreeObjectID with 256; lia]. rewrite Eo. apply (Hl (k, d) (or_introl eq_refl)).
  Qed.
  Lemma volume_agree kids : (forall e, In e (st_items (q_subvolumes q)) -> fine (ObjectID (ik_Key (fst e)))) -> volume_shape q A kids -> volume_shape q' A' kids.
  Proof using HA HL HAf HAl.
    clear D. intros Hl (main & ks & extra & V1 & V2 & V3 & V4 & V5 & V6). exists main, ks, extra. assert (Q : q_subvolumes q' = q_subvolumes q) by apply HA. rewrite Q.
    split; [apply (proj1 shows_agree); [exact V1|..]; unfold fine; [change FSTreeObjectID with 5|change FirstFreeObjectID with 256]; lia|]. split; [exact V2|]. split; [apply subvols_agree; assumption|]. auto.
  Qed.
End Agree.
Lemma volume_agrees q q' D kids : agrees q q' -> (forall o d e loc, In e (st_items (q_dirItems q o d)) -> DirItem_Location (snd e) = Ok loc -> fine (ObjectID loc)) ->
  (forall e, In e (st_items (q_subvolumes q)) -> fine (ObjectID (ik_Key (fst e)))) -> volume_shows q D kids -> volume_shows q' D kids.
Proof.
  intros HA HL Hs. apply (volume_agree q q' HA HL (shown q D) (shown q' D)); [|exact (link_agrees q q' D HA)|exact Hs]. exact (file_agrees q q' D HA).
Qed.

(** ** the index that recon writes answers like the table *)
Section Answers.
  Variables (is : list insertion) (m : list byte) (cs : list (Z * d_chunk)).
  Let b := fold_left put_ins is [(metadataKey, m)].
  Hypothesis HW : Forall wf_ins is.
  Hypothesis HV : forall i, In i is -> i_owner i < max64 /\ insert_value (i_item i) (i_data i) = i_item i ++ i_data i /\ valueData (i_item i ++ i_data i) = Ok (sl (i_data i)).
  Hypothesis HD : orderly is.
  Hypothesis HC : chunks_are is cs.
  Lemma table_agrees fuel : (length b + 1 < fuel)%nat -> agrees (table is cs) (ix_queries fuel b max64).
  Proof.
    intros Hf. assert (HV' : forall i, In i is -> insert_value (i_item i) (i_data i) = i_item i ++ i_data i /\ valueData (i_item i ++ i_data i) = Ok (sl (i_data i))) by (intros i Hi; apply HV; exact Hi).
    assert (HO' : forall i, In i is -> i_owner i < max64) by (intros i Hi; apply HV; exact Hi).
    split; [|split].
    - intros o d [Ho1 Ho2] [Hd1 Hd2]. assert (Uo : is_u64 o) by (unfold is_u64; lia). assert (Ud : is_u64 d) by (unfold is_u64; lia). assert (Mo : o < max64) by (unfold max64; lia).
      unfold table, ix_queries. cbn [q_dirItems q_inode q_extents q_extent0]. unfold DirItems, FileExtentItems, FindInodeItem, FindFileExtentItem.
      split; [apply stream_of_items, (group_rows is m HW HV' HO' HD); auto|].
      split; [apply (find_at is m HW HV' HO'); try assumption; unfold wf_Key, KF2, is_u64, is_u8; cbn [ObjectID KType KOffset]; unfold is_u64 in *; lia|].
      split; [apply stream_of_items, (group_rows is m HW HV' HO' HD); auto|].
      apply (find_at is m HW HV' HO'); try assumption; unfold wf_Key, KF2, is_u64, is_u8; cbn [ObjectID KType KOffset]; unfold is_u64 in *; lia.
    - intros l p H. cbn [ix_queries q_physical]. apply (phys_at is m cs HW HV' HO' HD HC); assumption.
    - cbn [ix_queries table q_subvolumes]. apply stream_of_items, (subvol_rows is m HW HV' HO' HD). exact Hf.
  Qed.
  Lemma table_leads o d e loc : In e (st_items (q_dirItems (table is cs) o d)) -> DirItem_Location (snd e) = Ok loc -> fine (ObjectID loc).
  Proof.
    cbn [table q_dirItems st_items]. intros He Hloc. apply in_map_iff in He as (i & <- & Hi). cbn [row snd] in Hloc. apply filter_In in Hi as [Hi Hk]. destruct (tree_in is i o Hi) as [Hi' _].
    destruct HD as (H1 & _). split; [|apply (H1 i loc Hi'); [lia|exact Hloc]].
    unfold DirItem_Location, atKey in Hloc. destruct (go_from (sl (i_data i)) dirItemLocation) as [x| |] eqn:EG; cbn [rbind] in Hloc; try discriminate.
    unfold SliceKey in Hloc. destruct (SliceUint64LE x) as [y| |] eqn:EU; cbn [rbind] in Hloc; try discriminate.
    destruct (go_index x 8) as [t| |]; cbn [rbind] in Hloc; try discriminate. destruct (go_from x 9) as [z| |]; cbn [rbind] in Hloc; try discriminate.
    destruct (SliceUint64LE z) as [f| |]; cbn [rbind] in Hloc; try discriminate. assert (E : loc = mkKey y t f) by congruence. subst loc. cbn [ObjectID].
    assert (EA : at64 dirItemLocation (sl (i_data i)) = Ok y) by (unfold at64; rewrite EG; exact EU). apply (PropsRecoverDfs.at64_range _ _ _ EA).
  Qed.
  Lemma table_subvols e : In e (st_items (q_subvolumes (table is cs))) -> fine (ObjectID (ik_Key (fst e))).
  Proof.
    cbn [table q_subvolumes st_items]. intros He. apply in_map_iff in He as (i & <- & Hi). cbn [row fst]. apply filter_In in Hi as [Hi Hk]. destruct (tree_in is i 1 Hi) as [Hi' _].
    rewrite Forall_forall in HW. destruct (HW i Hi') as [WT _]. destruct (ik_built _ _ _ WT) as (_ & _ & _ & _ & _ & ->). unfold fine. lia.
  Qed.
End Answers.

(** ** the whole way: scan an image, then recover from the index and the image *)
(** [D]: the bytes of the image; [is]: the items its blocks carry, in the order of the blocks;
    [cs]: its chunks.  A volume whose items describe the tree [kids] is restored exactly. *)
Theorem C69_recon_then_recover : forall id D bs is cs kids E clobber dest w P cfuel,
  big_enough D bs -> 101 <= bs -> length id = 16%nat -> id <> repeat x00 16 ->
  image_items id D bs is -> orderly is -> chunks_are is cs -> volume_shows (table is cs) D kids ->
  SpecContent.no_faults E -> 2^64 < Z.of_nat cfuel ->
  new_dest E (w_fs w) dest P -> paths_short dest kids -> part_of_tree (w_fs w) P (TDir kids) -> replaceable clobber (w_fs w) P (TDir kids) ->
  exists b ix,
    (* recon, with a metadata file that does not exist yet, reports success and leaves the index [b] *)
    doScanFS true true PropsRecon.no_faults (file_dev D) bs id None = (Some b, XOk) /\
    (* recover opens it read-only *)
    OpenReadOnly (Some b) = Ok (Some b, Some ix) /\ ix_tx ix = Some (mkTx false b) /\
    (* and restores the tree, creating the destination if need be, touches nothing else and warns of nothing *)
    forall rfuel, (length b + 1 < rfuel)%nat -> exists fuel0, forall fuel, (fuel0 <= fuel)%nat ->
    exists w' v evs, doRecoverFiles fuel cfuel E (file_reader D) (ix_queries rfuel b (ix_Generation ix)) clobber dest w = (w', Ret (true, v)) /\
      holds_tree (w_fs w') P (TDir kids) /\ (forall a b, P = a ++ b -> look (w_fs w') a = Some NDir) /\
      (forall p, ~ at_or_below P p -> ~ at_or_below p P -> look (w_fs w') p = look (w_fs w) p) /\
      w_log w' = evs ++ w_log w /\ (forall k s, ~ In (EvWarn k s) evs).
Proof.
  intros id D bs is cs kids E clobber dest w P cfuel HB Hb Hlen Hid HI HD HC HS HE Hcf HP HPS HF HR.
  set (o := mkOptions false bs id (2^64 - 1) false). set (m := newIndexMetadata o).
  destruct (open_none bs id Hlen) as (ix0 & HO). fold o in HO. fold m in HO.
  destruct (recon_run id D bs None (Some [(metadataKey, m)]) ix0 HB Hid HO) as (b0' & E0 & HRun). injection E0 as <-.
  rewrite (trace_items id D bs is HB Hb HI) in HRun. cbn [fst snd] in HRun. destruct (items_wf _ _ _ _ HI) as [W1 W2].
  assert (Op0 : opened [(metadataKey, m)]) by (split; [split; [cbn; auto|repeat constructor]|exists m; left; reflexivity]).
  set (b := fold_left put_ins is [(metadataKey, m)]) in *.
  assert (Op : opened b) by (apply puts_opened; assumption).
  assert (G : get b metadataKey = Some m) by (unfold b; rewrite PropsReconAny.get_metadata_puts by assumption; apply get_In; [apply Op0|left; reflexivity]).
  change m with (md_record 20190809 (u32 (o_BlockSize o)) (o_FSID o) (o_Generation o)) in G.
  destruct (C25_open_existing ro_options b _ _ _ _ (proj1 Op) G) as [(_ & ix & HX & _ & _ & HG & HT & _)|[HN _]]; [unfold is_u64; lia|apply u32_range|exact Hlen| |].
  2:{ destruct HN. split; [lia|]. split; [right; reflexivity|left; reflexivity]. }
  exists b, ix. split; [exact HRun|]. split; [exact HX|]. split; [exact HT|].
  assert (HV : forall rfuel, (length b + 1 < rfuel)%nat -> volume_shows (ix_queries rfuel b (ix_Generation ix)) D kids).
  { intros rfuel Hr. rewrite HG. change (o_Generation ro_options) with max64. assert (HIV := items_value id D bs is HI).
    apply (volume_agrees (table is cs)); [apply table_agrees; assumption|apply table_leads; assumption|apply table_subvols; assumption|exact HS]. }
  intros rfuel Hr. apply C67_new_destination with (D := D); auto.
  - apply PropsRecoverEx.file_reader_good.
  - apply HB.
Qed.
Print Assumptions C69_recon_then_recover.

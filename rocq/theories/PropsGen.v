(** C95: an image whose blocks are of different generations, the normal case: a btrfs tree is rewritten
    block by block.  [SpecGen.seen] says exactly which items the programs work with; with those they behave as
    C69 and C84 say.  Volumes on which the newest versions of all the items of an object are of one
    generation are the special case where nothing is hidden. *)
From Verif Require Import Go GoProofs Layout LayoutProofs SpecLayout LeafProofs StructProofs PropsLayout KeyFmt KeyProofs Bolt Store StoreProofs SpecStore RangeProofs PropsStore PropsRange Session PropsSession IoUtil Recon PropsRecon PropsReconEx RangeItems.
From Verif Require Import PropsPath ToString Fs Recover SpecFs SpecContent SpecTree SpecDisk DiskProofs PropsDest PropsDisk SpecLoss Rescue PropsRescueRead PropsRescueNode SpecMount PropsMount SpecMountAny PropsMountAny PropsMountAnyDisk SpecGen GenProofs.
From Verif Require PropsRecoverDfs PropsRecoverEx PropsReconAny.
From Coq Require Import List Sorted ZifyBool ZifyNat ZifyN.
Ltac Zify.zify_post_hook ::= Z.div_mod_to_equations.

(** ** what is seen, in general *)
(** the keys seen are the first ones, up to a key of which there is no item of the generation of the newest
    version of the first *)
Lemma same_prefix is o g l : exists n, map i_key (same_generation is o g l) = firstn n (map i_key l) /\
  match nth_error l n with Some i => forall j, In j is -> i_owner j = o -> i_key j = i_key i -> i_gen j <> g | None => (length l <= n)%nat end.
Proof.
  induction l as [|i l (n & IH1 & IH2)]; [exists O; split; [reflexivity|cbn; lia]|]. cbn [same_generation]. destruct (version is o (i_key i) g) as [v|] eqn:EV.
  - exists (S n). cbn [map firstn nth_error]. split; [rewrite IH1; f_equal; apply (version_in _ _ _ _ _ EV)|]. destruct (nth_error l n); [exact IH2|cbn [length]; lia].
  - exists O. split; [reflexivity|]. cbn [nth_error]. intros j Hj Ho Hk Hg.
    assert (HX : forall l0, In j l0 -> version l0 o (i_key i) g <> None).
    { intros l0. unfold version. induction l0 as [|x l1 IH] using rev_ind; [intros []|]. rewrite fold_left_app. cbn [fold_left]. intros H. apply in_app_or in H as [H|[->|[]]].
      - destruct (_ && _); [discriminate|apply IH; exact H].
      - rewrite (proj2 (same_keyb_eq _ _) Hk), Ho, Hg, !Z.eqb_refl. discriminate. }
    exact (HX is Hj EV).
Qed.
Lemma newest_version is o i : In i (tree_items is o) -> version is o (i_key i) (i_gen i) = Some i.
Proof.
  intros H. destruct (tree_newest is o i H) as (Ho & a & c & E & _ & C). apply version_some. exists a, c. split; [exact E|]. split; [repeat split; assumption|].
  intros j Hj (J1 & J2 & J3). specialize (C j Hj J1 J2). lia.
Qed.
Lemma same_all is o g l : (forall i, In i l -> In i (tree_items is o)) -> (forall i, In i l -> i_gen i = g) -> same_generation is o g l = l.
Proof.
  intros HT HG. induction l as [|i l IH]; [reflexivity|]. cbn [same_generation].
  assert (E : version is o (i_key i) g = Some i) by (rewrite <- (HG i (or_introl eq_refl)); apply newest_version, HT; left; reflexivity). rewrite E, IH; [reflexivity|..]; intros x Hx; [apply HT|apply HG]; right; exact Hx.
Qed.
Lemma seen_all is o l : (forall i, In i l -> In i (tree_items is o)) -> seen_of is o l = l <-> one_generation l.
Proof.
  intros HT. unfold seen_of. destruct l as [|i l]; [split; [intros _ ? ? []|reflexivity]|]. split.
  - intros E x y Hx Hy. rewrite <- E in Hx, Hy. destruct (same_in _ _ _ _ _ Hx) as (_ & _ & -> & _). destruct (same_in _ _ _ _ _ Hy) as (_ & _ & -> & _). reflexivity.
  - intros H. apply same_all; [exact HT|]. intros x Hx. apply H; [exact Hx|left; reflexivity].
Qed.
(** C95a: which items of an object are seen: the first ones of its keys, all in the generation of the newest
    version of the first, up to the first key that has no item of that generation. *)
Theorem C95_seen : forall is o t id, exists n,
  map i_key (seen_group is o t id) = firstn n (map i_key (group is o t id)) /\
  (forall j, In j (seen_group is o t id) -> In j is /\ i_owner j = o /\ match group is o t id with i :: _ => i_gen j = i_gen i | [] => False end) /\
  match nth_error (group is o t id) n, group is o t id with
  | Some x, i :: _ => forall j, In j is -> i_owner j = o -> i_key j = i_key x -> i_gen j <> i_gen i
  | _, _ => (length (group is o t id) <= n)%nat end.
Proof.
  intros is o t id. unfold seen_group, seen_of. destruct (group is o t id) as [|i l] eqn:EG; [exists O; split; [reflexivity|]; split; [intros j []|cbn; lia]|].
  destruct (same_prefix is o (i_gen i) (i :: l)) as (n & A & B). exists n. split; [exact A|]. split.
  - intros j Hj. destruct (same_in _ _ _ _ _ Hj) as (C & D & E & _). auto.
  - destruct (nth_error (i :: l) n); exact B.
Qed.
(** C95b: all the items of an object are seen, in their newest versions, just when those are of one generation *)
Theorem C95_whole : forall is o t id, seen_group is o t id = group is o t id <-> one_generation (group is o t id).
Proof. intros is o t id. apply seen_all. intros i Hi. apply filter_In in Hi. apply Hi. Qed.
(** C95c: on the volumes of C69 and C84 nothing is hidden *)
Theorem C95_orderly : forall is cs, orderly is -> chunks_are is cs ->
  separated is /\ seen_chunks is cs /\ (forall o t id, (t = 84 \/ t = 108 \/ t = 228) -> seen_group is o t id = group is o t id) /\ seen_subvols is = subvols is.
Proof.
  intros is cs (H1 & H2 & H3 & H4) HC.
  assert (HG : forall o t id, (t = 84 \/ t = 108 \/ t = 228) -> seen_group is o t id = group is o t id).
  { intros o t id Ht. apply C95_whole. destruct (group is o t id) as [|i l] eqn:E; [intros ? ? []|]. rewrite <- E. apply H3; [exact Ht|congruence]. }
  split; [split; [exact H1|split; [exact H2|split]]|split; [|split; [exact HG|]]].
  - intros o t id Ht HN. apply (H3 o t id Ht HN).
  - intros HN. apply (H4 HN).
  - destruct HC as [A B]. split; [rewrite HG by auto; exact A|exact B].
  - unfold seen_subvols. assert (HT : forall i, In i (subvols is) -> In i (tree_items is 1)) by (intros i Hi; apply filter_In in Hi; apply Hi).
    pose proof (isorted_filter (fun i => (KType (i_key i) =? 132) && (256 <=? ObjectID (i_key i)) && (ObjectID (i_key i) <=? 2^64 - 256)) _ (tree_sorted is 1)) as HS. fold (subvols is) in HS.
    destruct (subvols is) as [|i l] eqn:E; [reflexivity|]. destruct H4 as (HG1 & _ & x & Hx & Ex); [discriminate|].
    assert (Ei : ObjectID (i_key i) = 256).
    { assert (A : forall y, In y (i :: l) -> KType (i_key y) = 132 /\ 256 <= ObjectID (i_key y)) by (intros y Hy; rewrite <- E in Hy; apply filter_In in Hy as [_ Hy]; cbv beta in Hy; clear -Hy; lia).
      destruct Hx as [->|Hx]; [exact Ex|]. inversion HS as [|? ? _ HF]; subst. rewrite Forall_forall in HF. specialize (HF x Hx). destruct (A i (or_introl eq_refl)) as [A1 A2]. destruct (A x (or_intror Hx)) as [A3 A4].
      unfold key_lt in HF. clear -HF A1 A2 A3 A4 Ex. lia. }
    rewrite Ei. cbv beta iota. change (256 =? 256) with true. cbv iota. apply seen_all; assumption.
Qed.
Print Assumptions C95_seen.
Print Assumptions C95_whole.
Print Assumptions C95_orderly.

(** ** the index that recon writes answers as [seen] *)
Section Answers.
  Variables (is : list insertion) (m : list byte) (cs : list (Z * d_chunk)).
  Let b := fold_left put_ins is [(metadataKey, m)].
  Hypothesis HW : Forall wf_ins is.
  Hypothesis HV : forall i, In i is -> i_owner i < max64 /\ insert_value (i_item i) (i_data i) = i_item i ++ i_data i /\ valueData (i_item i ++ i_data i) = Ok (sl (i_data i)).
  Hypothesis HD : separated is.
  Hypothesis HC : seen_chunks is cs.
  Lemma seen_agrees fuel : (length b + 1 < fuel)%nat -> agrees (seen is cs) (ix_queries fuel b max64).
  Proof.
    intros Hf. assert (HV' : forall i, In i is -> insert_value (i_item i) (i_data i) = i_item i ++ i_data i /\ valueData (i_item i ++ i_data i) = Ok (sl (i_data i))) by (intros i Hi; apply HV; exact Hi).
    assert (HO' : forall i, In i is -> i_owner i < max64) by (intros i Hi; apply HV; exact Hi).
    split; [|split].
    - intros o d [Ho1 Ho2] [Hd1 Hd2]. assert (Uo : is_u64 o) by (unfold is_u64; lia). assert (Ud : is_u64 d) by (unfold is_u64; lia). assert (Mo : o < max64) by (unfold max64; lia).
      unfold seen, ix_queries. cbn [q_dirItems q_inode q_extents q_extent0]. unfold DirItems, FileExtentItems, FindInodeItem, FindFileExtentItem.
      split; [apply stream_of_items, (group_seen is m HW HV' HO' HD); auto|].
      split; [apply (find_at is m HW HV' HO'); try assumption; unfold wf_Key, KF2, is_u64, is_u8; cbn [ObjectID KType KOffset]; unfold is_u64 in *; lia|].
      split; [apply stream_of_items, (group_seen is m HW HV' HO' HD); auto|].
      apply (find_at is m HW HV' HO'); try assumption; unfold wf_Key, KF2, is_u64, is_u8; cbn [ObjectID KType KOffset]; unfold is_u64 in *; lia.
    - intros l p H. cbn [ix_queries q_physical]. apply (phys_seen is m cs HW HV' HO' HD HC); assumption.
    - cbn [ix_queries seen q_subvolumes]. apply stream_of_items, (subvol_seen is m HW HV' HO' HD). exact Hf.
  Qed.
  Lemma seen_leads o d e loc : In e (st_items (q_dirItems (seen is cs) o d)) -> DirItem_Location (snd e) = Ok loc -> fine (ObjectID loc).
  Proof.
    cbn [seen q_dirItems st_items]. intros He Hloc. apply in_map_iff in He as (i & <- & Hi). cbn [row snd] in Hloc. destruct (seen_in _ _ _ _ Hi) as (Hi' & _ & x & Hx & Ex). apply filter_In in Hx as [_ Hk]. cbv beta in Hk. rewrite <- Ex in Hk.
    destruct HD as (H1 & _). split; [|apply (H1 i loc Hi'); [lia|exact Hloc]].
    unfold DirItem_Location, atKey in Hloc. destruct (go_from (sl (i_data i)) dirItemLocation) as [z| |] eqn:EG; cbn [rbind] in Hloc; try discriminate.
    unfold SliceKey in Hloc. destruct (SliceUint64LE z) as [y| |] eqn:EU; cbn [rbind] in Hloc; try discriminate.
    destruct (go_index z 8) as [t| |]; cbn [rbind] in Hloc; try discriminate. destruct (go_from z 9) as [z'| |]; cbn [rbind] in Hloc; try discriminate.
    destruct (SliceUint64LE z') as [f| |]; cbn [rbind] in Hloc; try discriminate. assert (E : loc = mkKey y t f) by congruence. subst loc. cbn [ObjectID].
    assert (EA : at64 dirItemLocation (sl (i_data i)) = Ok y) by (unfold at64; rewrite EG; exact EU). apply (PropsRecoverDfs.at64_range _ _ _ EA).
  Qed.
  Lemma seen_subvols_fine e : In e (st_items (q_subvolumes (seen is cs))) -> fine (ObjectID (ik_Key (fst e))).
  Proof.
    cbn [seen q_subvolumes st_items]. intros He. apply in_map_iff in He as (i & <- & Hi). cbn [row fst]. unfold seen_subvols in Hi. destruct (subvols is) as [|i0 l] eqn:ES; [destruct Hi|]. destruct (_ =? _); [|destruct Hi].
    destruct (seen_in _ _ _ _ Hi) as (Hi' & _ & x & Hx & Ex). rewrite <- ES in Hx. apply filter_In in Hx as [_ Hk]. cbv beta in Hk. rewrite <- Ex in Hk.
    rewrite Forall_forall in HW. destruct (HW i Hi') as [WT _]. destruct (ik_built _ _ _ WT) as (_ & _ & _ & _ & _ & ->). unfold fine. lia.
  Qed.
End Answers.

(** recon succeeds, its index opens, and every query on it is answered as [seen] says *)
Theorem C95_answers : forall id D bs is cs,
  big_enough D bs -> 101 <= bs -> length id = 16%nat -> id <> repeat x00 16 ->
  image_items id D bs is -> separated is -> seen_chunks is cs ->
  exists b ix,
    doScanFS true true PropsRecon.no_faults (file_dev D) bs id None = (Some b, XOk) /\
    OpenReadOnly (Some b) = Ok (Some b, Some ix) /\ ix_tx ix = Some (mkTx false b) /\
    forall rfuel, (length b + 1 < rfuel)%nat -> let q := ix_queries rfuel b (ix_Generation ix) in
      (forall o d, 0 <= o < 2^64 - 1 -> 0 <= d < 2^64 - 1 ->
         q_dirItems q o d = q_dirItems (seen is cs) o d /\ q_inode q o d = q_inode (seen is cs) o d /\
         q_extents q o d = q_extents (seen is cs) o d /\ q_extent0 q o d = q_extent0 (seen is cs) o d) /\
      (forall l p, q_physical (seen is cs) l = Ok p -> q_physical q l = Ok p) /\ q_subvolumes q = q_subvolumes (seen is cs).
Proof.
  intros id D bs is cs HB Hb Hlen Hid HI HO HC.
  set (o := mkOptions false bs id (2^64 - 1) false). set (m := newIndexMetadata o).
  destruct (open_none bs id Hlen) as (ix0 & HOp). fold o in HOp. fold m in HOp.
  destruct (recon_run id D bs None (Some [(metadataKey, m)]) ix0 HB Hid HOp) as (b0' & E0 & HRun). injection E0 as <-.
  rewrite (trace_items id D bs is HB Hb HI) in HRun. cbn [fst snd] in HRun. destruct (items_wf _ _ _ _ HI) as [W1 W2].
  assert (Op0 : opened [(metadataKey, m)]) by (split; [split; [cbn; auto|repeat constructor]|exists m; left; reflexivity]).
  set (b := fold_left put_ins is [(metadataKey, m)]) in *.
  assert (Op : opened b) by (apply puts_opened; assumption).
  assert (G : get b metadataKey = Some m) by (unfold b; rewrite PropsReconAny.get_metadata_puts by assumption; apply get_In; [apply Op0|left; reflexivity]).
  change m with (md_record 20190809 (u32 (o_BlockSize o)) (o_FSID o) (o_Generation o)) in G.
  destruct (C25_open_existing ro_options b _ _ _ _ (proj1 Op) G) as [(_ & ix & HX & _ & _ & HG & HT & _)|[HN _]]; [unfold is_u64; lia|apply u32_range|exact Hlen| |].
  2:{ destruct HN. split; [lia|]. split; [right; reflexivity|left; reflexivity]. }
  exists b, ix. split; [exact HRun|]. split; [exact HX|]. split; [exact HT|]. intros rfuel Hr. cbv zeta. rewrite HG. change (o_Generation ro_options) with max64.
  assert (HIV := items_value id D bs is HI). exact (seen_agrees is m cs W1 HIV HO HC rfuel Hr).
Qed.
Print Assumptions C95_answers.

(** C95d: a volume of which the items seen describe the tree [kids]: recover restores that tree *)
Theorem C95_recover : forall id D bs is cs kids E clobber dest w P cfuel,
  big_enough D bs -> 101 <= bs -> length id = 16%nat -> id <> repeat x00 16 ->
  image_items id D bs is -> separated is -> seen_chunks is cs -> volume_shows (seen is cs) D kids ->
  SpecContent.no_faults E -> 2^64 < Z.of_nat cfuel ->
  new_dest E (w_fs w) dest P -> paths_short dest kids -> part_of_tree (w_fs w) P (TDir kids) -> replaceable clobber (w_fs w) P (TDir kids) ->
  exists b ix,
    doScanFS true true PropsRecon.no_faults (file_dev D) bs id None = (Some b, XOk) /\
    OpenReadOnly (Some b) = Ok (Some b, Some ix) /\ ix_tx ix = Some (mkTx false b) /\
    forall rfuel, (length b + 1 < rfuel)%nat -> exists fuel0, forall fuel, (fuel0 <= fuel)%nat ->
    exists w' v evs, doRecoverFiles fuel cfuel E (file_reader D) (ix_queries rfuel b (ix_Generation ix)) clobber dest w = (w', Ret (true, v)) /\
      holds_tree (w_fs w') P (TDir kids) /\ (forall a b, P = a ++ b -> look (w_fs w') a = Some NDir) /\
      (forall p, ~ at_or_below P p -> ~ at_or_below p P -> look (w_fs w') p = look (w_fs w) p) /\
      w_log w' = evs ++ w_log w /\ (forall k s, ~ In (EvWarn k s) evs).
Proof.
  intros id D bs is cs kids E clobber dest w P cfuel HB Hb Hlen Hid HI HD HC HS HE Hcf HP HPS HF HR.
  destruct (C95_answers id D bs is cs HB Hb Hlen Hid HI HD HC) as (b & ix & A1 & A2 & A3 & HA). exists b, ix. split; [exact A1|]. split; [exact A2|]. split; [exact A3|].
  intros rfuel Hr. apply C67_new_destination with (D := D); auto; [apply PropsRecoverEx.file_reader_good|apply HB|].
  destruct (items_wf _ _ _ _ HI) as [W1 _]. assert (HIV := items_value id D bs is HI). apply (volume_agrees (seen is cs)); [exact (HA rfuel Hr)|intros o d e loc; apply seen_leads; assumption|intros e; apply seen_subvols_fine; assumption|exact HS].
Qed.
Print Assumptions C95_recover.

(** C95e: ... and the mount shows what the items seen say *)
Theorem C95_mount : forall id D bs is cs dev contents inodes,
  big_enough D bs -> 101 <= bs -> length id = 16%nat -> id <> repeat x00 16 ->
  image_items id D bs is -> separated is -> seen_chunks is cs ->
  holds (seen is cs) contents inodes -> reads_from D dev ->
  exists b ix,
    doScanFS true true PropsRecon.no_faults (file_dev D) bs id None = (Some b, XOk) /\
    OpenReadOnly (Some b) = Ok (Some b, Some ix) /\ ix_tx ix = Some (mkTx false b) /\
    forall rfuel, (length b + 1 < rfuel)%nat -> let q := ix_queries rfuel b (ix_Generation ix) in
    (forall T p isd n, session q T -> In (p, isd, n) T -> at_path contents inodes p (n_owner n, n_inode n) isd /\ shows_key (seen is cs) q D dev contents inodes n) /\
    (forall T p k isd, session q T -> (exists n, In ([], true, n) T) -> at_path contents inodes p k isd ->
       exists T' n, session q T' /\ incl (map fst T) (map fst T') /\ In (p, isd, n) T' /\ (n_owner n, n_inode n) = k).
Proof.
  intros id D bs is cs dev contents inodes HB Hb Hlen Hid HI HO HC HH HDv.
  destruct (C95_answers id D bs is cs HB Hb Hlen Hid HI HO HC) as (b & ix & A1 & A2 & A3 & HA). exists b, ix. split; [exact A1|]. split; [exact A2|]. split; [exact A3|].
  intros rfuel Hr. cbv zeta. specialize (HA rfuel Hr). cbv zeta in HA.
  assert (HF : forall o i, reach contents o i -> fine o /\ fine i).
  { apply (reach_fine (seen is cs) contents inodes HH). destruct (items_wf _ _ _ _ HI) as [W1 _]. assert (HIV := items_value id D bs is HI). intros o1 d e loc. apply seen_leads; assumption. }
  set (qi := ix_queries rfuel b (ix_Generation ix)) in *. clearbody qi. destruct HA as (HQ & HPh & _).
  apply mounted_any; [|exact HPh|exact HH|exact HDv|apply HB].
  intros o1 i1 HR. destruct (HF o1 i1 HR) as [A B]. destruct (HQ o1 i1 A B) as (Q1 & Q2 & Q3 & Q4). auto.
Qed.
Print Assumptions C95_mount.

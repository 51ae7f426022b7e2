(** Property theorems C05-C10, C13-C15: decoding of on-disk structures. *)
From Verif Require Import Go GoProofs Layout SpecLayout LayoutProofs LeafProofs StructProofs.
From Coq Require Import ZifyBool ZifyNat ZifyN.
Ltac Zify.zify_post_hook ::= Z.div_mod_to_equations.

(** ** C05: little-endian integers, for every content *)
Theorem C05_uint16 : forall b0 b1 rest n,
  SliceUint16LE (mkSlice (b0 :: b1 :: rest) n) = Ok (bz b0 + 2^8 * bz b1).
Proof.
  intros. unfold SliceUint16LE, go_to. rewrite go_slice_ok.
  - cbn [rbind]. unfold sbytes. cbn [s_arr s_len]. change (Z.to_nat (2 - 0)) with 2%nat.
    change (Z.to_nat 0) with 0%nat. cbn [skipn firstn le_decode]. f_equal. lia.
  - lia.
  - unfold scap; cbn [s_arr]. rewrite !zlen_cons. pose proof (zlen_nonneg rest). lia.
Qed.
Theorem C05_uint32 : forall b0 b1 b2 b3 rest n,
  SliceUint32LE (mkSlice (b0 :: b1 :: b2 :: b3 :: rest) n) =
  Ok (bz b0 + 2^8 * bz b1 + 2^16 * bz b2 + 2^24 * bz b3).
Proof.
  intros. unfold SliceUint32LE, go_to. rewrite go_slice_ok.
  - cbn [rbind]. unfold sbytes. cbn [s_arr s_len]. change (Z.to_nat (4 - 0)) with 4%nat.
    change (Z.to_nat 0) with 0%nat. cbn [skipn firstn le_decode]. f_equal. lia.
  - lia.
  - unfold scap; cbn [s_arr]. rewrite !zlen_cons. pose proof (zlen_nonneg rest). lia.
Qed.
Theorem C05_uint64 : forall b0 b1 b2 b3 b4 b5 b6 b7 rest n,
  SliceUint64LE (mkSlice (b0 :: b1 :: b2 :: b3 :: b4 :: b5 :: b6 :: b7 :: rest) n) =
  Ok (bz b0 + 2^8 * bz b1 + 2^16 * bz b2 + 2^24 * bz b3 + 2^32 * bz b4 + 2^40 * bz b5 + 2^48 * bz b6 + 2^56 * bz b7).
Proof.
  intros. unfold SliceUint64LE, go_to. rewrite go_slice_ok.
  - cbn [rbind]. unfold sbytes. cbn [s_arr s_len]. change (Z.to_nat (8 - 0)) with 8%nat.
    change (Z.to_nat 0) with 0%nat. cbn [skipn firstn le_decode]. f_equal. lia.
  - lia.
  - unfold scap; cbn [s_arr]. rewrite !zlen_cons. pose proof (zlen_nonneg rest). lia.
Qed.
(** abort exactly when the backing storage is too short *)
Theorem C05_abort : forall s, 
  (SliceUint16LE s = Panic <-> scap s < 2) /\ (SliceUint32LE s = Panic <-> scap s < 4) /\
  (SliceUint64LE s = Panic <-> scap s < 8) /\ (SliceUUID s = Panic <-> scap s < 16).
Proof.
  intros s. unfold SliceUint16LE, SliceUint32LE, SliceUint64LE, SliceUUID, go_to, UUIDSize.
  repeat split; intros H.
  all: match goal with
       | |- rbind _ _ = Panic => rewrite go_slice_panic by lia; reflexivity
       | H : rbind (go_slice ?x 0 ?n) _ = Panic |- _ =>
           destruct (Z_lt_dec (scap x) n) as [|Hge]; [assumption|]; rewrite go_slice_ok in H by lia; discriminate
       end.
Qed.
Theorem C05_uuid : forall u rest n, length u = 16%nat -> SliceUUID (mkSlice (u ++ rest) n) = Ok u.
Proof.
  intros u rest n H. apply (slice_field (mkSlice (u ++ rest) n) [] u rest 0 16 eq_refl eq_refl).
  unfold zlen. rewrite H. reflexivity.
Qed.
Theorem C05_key : forall o t f rest s, is_u64 o -> is_u8 t -> is_u64 f -> slice_wf s -> 9 <= s_len s ->
  s_arr s = le_encode 8 o ++ le_encode 1 t ++ le_encode 8 f ++ rest ->
  SliceKey s = Ok (mkKey o t f).
Proof.
  intros o t f rest s Ho Ht Hf Hwf Hl Ha.
  assert (E : SliceKey s = atKey 0 s).
  { unfold atKey, go_from. unfold slice_wf in Hwf. rewrite go_slice_ok by (unfold scap; lia). cbn [rbind].
    change (Z.to_nat 0) with 0%nat. cbn [skipn]. rewrite Z.sub_0_r. destruct s; reflexivity. }
  rewrite E, atKey_parts by (try exact Hwf; lia).
  rewrite (at64_val s [] o _ 0 Hwf Ha eq_refl ltac:(lia) Ho). cbn [rbind].
  rewrite (at8_val s (le_encode 8 o) t (le_encode 8 f ++ rest) (0 + 8) Ha eq_refl ltac:(lia) Ht). cbn [rbind].
  rewrite (at64_val s (le_encode 8 o ++ le_encode 1 t) f rest (0 + 9) Hwf); [reflexivity|..].
  - rewrite Ha, <- !app_assoc. reflexivity.
  - reflexivity.
  - lia.
  - exact Hf.
Qed.
Example C05_key_ex : SliceKey (sl (map zb [0;1;0;0;0;0;0;0; 84; 7;0;0;0;0;0;0;128; 9])) = Ok (mkKey 256 84 (7 + 2^63)).
Proof. vm_compute. reflexivity. Qed.
Print Assumptions C05_uint16. Print Assumptions C05_uint32. Print Assumptions C05_uint64.
Print Assumptions C05_abort. Print Assumptions C05_uuid. Print Assumptions C05_key.

(** ** C06: one theorem per on-disk structure; [carries s fields]: the slice
    holds the packed structure, any values, anything behind it. *)
Theorem C06_header : forall h s, carries s (header_fields h) ->
  Header_CSum s = Ok (h_csum h) /\ Header_FSID s = Ok (h_fsid h) /\ Header_ByteNr s = Ok (h_bytenr h) /\
  Header_Flags s = Ok (h_flags h) /\ Header_ChunkTreeUUID s = Ok (h_chunk_tree_uuid h) /\
  Header_Generation s = Ok (h_generation h) /\ Header_Owner s = Ok (h_owner h) /\
  Header_NrItems s = Ok (h_nritems h) /\ Header_Level s = Ok (h_level h) /\
  Header_IsLeaf s = Ok (h_level h =? 0).
Proof.
  intros h s H. split.
  - pose proof (fRaw _ _ 0 _ _ H eq_refl) as E. cbn [firstn sumw] in E.
    destruct H as (_ & Hf & _). inversion Hf as [|? ? F _]; subst. cbn [fit1] in F. unfold zlen in E. rewrite F in E.
    exact E.
  - assert (HL : Header_Level s = Ok (h_level h)) by (fields H 10%nat).
    repeat match goal with |- _ /\ _ => split end;
      first [fld_upto H O 10%nat | unfold Header_IsLeaf; rewrite HL; reflexivity].
Qed.
Theorem C06_item : forall i s, carries s (item_fields i) ->
  Item_Key s = Ok (mkKey (k_objectid (it_key i)) (k_type (it_key i)) (k_offset (it_key i))) /\
  Item_Offset s = Ok (it_offset i) /\ Item_Size s = Ok (it_size i).
Proof. intros i s H. fields H 10%nat. Qed.
(** the data of an item as stored in the index (header directly followed by the data) *)
Theorem C06_item_data : forall i data s, carries s (item_fields i ++ [Raw (length data) data]) ->
  it_size i = zlen data -> zlen data < 2^32 - 25 ->
  exists d, Item_Data s = Ok d /\ sbytes d = data.
Proof.
  intros i data s H Hs Hz.
  assert (Hsz : Item_Size s = Ok (it_size i)) by exact (f32 _ _ 4 _ H eq_refl).
  pose proof (fRaw _ _ 5 _ _ H eq_refl) as E. change (sumw (firstn 5 _)) with 25 in E.
  apply rbind_ok in E as (d & E1 & E2). injection E2 as E2.
  exists d. split; [|exact E2]. unfold Item_Data. rewrite Hsz. cbn [rbind]. rewrite Hs. change ItemLen with 25.
  pose proof (zlen_nonneg data). rewrite u32_small by (unfold is_u32; lia). exact E1.
Qed.
Theorem C06_dev_extent : forall d s, carries s (dev_extent_fields d) ->
  DevExtent_ChunkTree s = Ok (de_chunk_tree d) /\ DevExtent_ChunkObjectID s = Ok (de_chunk_objectid d) /\
  DevExtent_ChunkOffset s = Ok (de_chunk_offset d) /\ DevExtent_Length s = Ok (de_length d) /\
  DevExtent_ChunkTreeUUID s = Ok (de_chunk_tree_uuid d).
Proof. intros d s H. fields H 10%nat. Qed.
Theorem C06_dev_item : forall d s, carries s (dev_item_fields d) ->
  DevItem_DevID s = Ok (dv_devid d) /\ DevItem_TotalBytes s = Ok (dv_total_bytes d) /\
  DevItem_BytesUsed s = Ok (dv_bytes_used d) /\ DevItem_IOAlign s = Ok (dv_io_align d) /\
  DevItem_IOWidth s = Ok (dv_io_width d) /\ DevItem_SectorSize s = Ok (dv_sector_size d) /\
  DevItem_Type s = Ok (dv_type d) /\ DevItem_Generation s = Ok (dv_generation d) /\
  DevItem_StartOffset s = Ok (dv_start_offset d) /\ DevItem_DevGroup s = Ok (dv_dev_group d) /\
  DevItem_SeekSpeed s = Ok (dv_seek_speed d) /\ DevItem_Bandwidth s = Ok (dv_bandwidth d) /\
  DevItem_UUID s = Ok (dv_uuid d) /\ DevItem_FSID s = Ok (dv_fsid d).
Proof. intros d s H. fields H 16%nat. Qed.
Theorem C06_stripe : forall t s, carries s (stripe_fields t) ->
  Stripe_DevID s = Ok (st_devid t) /\ Stripe_Offset s = Ok (st_offset t) /\ Stripe_DevUUID s = Ok (st_dev_uuid t).
Proof. intros t s H. fields H 5%nat. Qed.
(** chunk: all fields, and every stripe (an item never exceeds 64 KiB) *)
Theorem C06_chunk : forall c s, carries s (chunk_fields c) ->
  (Chunk_Length s = Ok (ch_length c) /\ Chunk_Owner s = Ok (ch_owner c) /\
   Chunk_StripeLen s = Ok (ch_stripe_len c) /\ Chunk_Type s = Ok (ch_type c) /\
   Chunk_IOAlign s = Ok (ch_io_align c) /\ Chunk_IOWidth s = Ok (ch_io_width c) /\
   Chunk_SectorSize s = Ok (ch_sector_size c) /\ Chunk_NumStripes s = Ok (zlen (ch_stripes c)) /\
   Chunk_SubStripes s = Ok (ch_sub_stripes c)) /\
  (zlen (ser (chunk_fields c)) < 65536 -> forall i st, nth_error (ch_stripes c) i = Some st ->
   exists sub, Chunk_Stripe s (Z.of_nat i) = Ok sub /\
     Stripe_DevID sub = Ok (st_devid st) /\ Stripe_Offset sub = Ok (st_offset st) /\
     Stripe_DevUUID sub = Ok (st_dev_uuid st)).
Proof.
  intros c s H. split.
  - apply carries_prefix in H. fields H 10%nat.
  - intros Hz i st Hn. destruct (chunk_stripe s c i st H Hz Hn) as (sub & E & Hs).
    exists sub. split; [exact E|]. exact (C06_stripe st sub Hs).
Qed.
Theorem C06_inode_item : forall i s, carries s (inode_fields i) -> inode_times_ok i ->
  InodeItem_Generation s = Ok (in_generation i) /\ InodeItem_TransID s = Ok (in_transid i) /\
  InodeItem_Size s = Ok (in_size i) /\ InodeItem_BlockGroup s = Ok (in_block_group i) /\
  InodeItem_Nlink s = Ok (in_nlink i) /\ InodeItem_UID s = Ok (in_uid i) /\ InodeItem_GID s = Ok (in_gid i) /\
  InodeItem_Mode s = Ok (in_mode i) /\ InodeItem_Rdev s = Ok (in_rdev i) /\ InodeItem_Flags s = Ok (in_flags i) /\
  InodeItem_Sequence s = Ok (in_sequence i) /\
  InodeItem_Reserved s = Ok [in_res0 i; in_res1 i; in_res2 i; in_res3 i] /\
  InodeItem_Atime s = Ok (ts_sec (in_atime i), ts_nsec (in_atime i)) /\
  InodeItem_Ctime s = Ok (ts_sec (in_ctime i), ts_nsec (in_ctime i)) /\
  InodeItem_Mtime s = Ok (ts_sec (in_mtime i), ts_nsec (in_mtime i)) /\
  InodeItem_Rtime s = Ok (ts_sec (in_otime i), ts_nsec (in_otime i)).
Proof.
  intros i s H (T1 & T2 & T3 & T4).
  assert (R : InodeItem_Reserved s = Ok [in_res0 i; in_res1 i; in_res2 i; in_res3 i]).
  { unfold InodeItem_Reserved.
    replace (at64 inodeItemReserved s) with (Ok (in_res0 i)) by (symmetry; fields H 17%nat).
    replace (at64 (inodeItemReserved + 8) s) with (Ok (in_res1 i)) by (symmetry; fields H 17%nat).
    replace (at64 (inodeItemReserved + 16) s) with (Ok (in_res2 i)) by (symmetry; fields H 17%nat).
    replace (at64 (inodeItemReserved + 24) s) with (Ok (in_res3 i)) by (symmetry; fields H 17%nat).
    reflexivity. }
  repeat match goal with |- _ /\ _ => split end; first [exact R | fld_upto H O 24%nat].
Qed.
Theorem C06_inode_ref : forall r s, carries s (inode_ref_fields r) ->
  InodeRefItem_Index s = Ok (ir_index r) /\ InodeRefItem_NameLen s = Ok (zlen (ir_name r)).
Proof. intros r s H. fields H 5%nat. Qed.
Theorem C06_dir_item : forall d s, carries s (dir_item_fields d) ->
  DirItem_Location s = Ok (mkKey (k_objectid (di_location d)) (k_type (di_location d)) (k_offset (di_location d))) /\
  DirItem_TransID s = Ok (di_transid d) /\ DirItem_DataLen s = Ok (zlen (di_data d)) /\
  DirItem_NameLen s = Ok (zlen (di_name d)) /\ DirItem_Type s = Ok (di_type d) /\
  DirItem_IsDir s = Ok (di_type d =? 2) /\ DirItem_IsSubvolume s = Ok (k_type (di_location d) =? 132).
Proof.
  intros d s H.
  assert (L : DirItem_Location s = Ok (mkKey (k_objectid (di_location d)) (k_type (di_location d)) (k_offset (di_location d))))
    by (fields H 9%nat).
  assert (T : DirItem_Type s = Ok (di_type d)) by (fields H 9%nat).
  repeat match goal with |- _ /\ _ => split end;
    first [ exact L | exact T | fld_upto H O 9%nat | unfold DirItem_IsDir; rewrite T; reflexivity
          | unfold DirItem_IsSubvolume; rewrite L; reflexivity ].
Qed.
Theorem C06_block_group : forall b s, carries s (block_group_fields b) ->
  BlockGroupItem_Used s = Ok (bg_used b) /\ BlockGroupItem_ChunkObjectID s = Ok (bg_chunk_objectid b) /\
  BlockGroupItem_Flags s = Ok (bg_flags b).
Proof. intros b s H. fields H 5%nat. Qed.
Theorem C06_file_extent : forall e s, carries s (fe_reg_fields e) ->
  FileExtentItem_Generation s = Ok (fe_generation (fr_head e)) /\ FileExtentItem_RAMBytes s = Ok (fe_ram_bytes (fr_head e)) /\
  FileExtentItem_Compression s = Ok (fe_compression (fr_head e)) /\ FileExtentItem_Encryption s = Ok (fe_encryption (fr_head e)) /\
  FileExtentItem_OtherEncoding s = Ok (fe_other_encoding (fr_head e)) /\ FileExtentItem_Type s = Ok (fe_type (fr_head e)) /\
  FileExtentItem_DiskByteNr s = Ok (fr_disk_bytenr e) /\ FileExtentItem_DiskNumBytes s = Ok (fr_disk_num_bytes e) /\
  FileExtentItem_Offset s = Ok (fr_offset e) /\ FileExtentItem_NumBytes s = Ok (fr_num_bytes e) /\
  FileExtentItem_IsInline s = Ok (fe_type (fr_head e) =? 0).
Proof.
  intros e s H. assert (T : FileExtentItem_Type s = Ok (fe_type (fr_head e))) by (fields H 9%nat).
  repeat match goal with |- _ /\ _ => split end;
    first [ fld_upto H O 12%nat | unfold FileExtentItem_IsInline; rewrite T; reflexivity ].
Qed.
Theorem C06_root_item : forall r s, carries s (root_fields r) -> inode_times_ok (ro_inode r) -> root_times_ok r ->
  (exists i, RootItem_Inode s = Ok i /\ carries i (inode_fields (ro_inode r))) /\
  RootItem_Generation s = Ok (ro_generation r) /\ RootItem_RootDirID s = Ok (ro_root_dirid r) /\
  RootItem_ByteNr s = Ok (ro_bytenr r) /\ RootItem_ByteLimit s = Ok (ro_byte_limit r) /\
  RootItem_BytesUsed s = Ok (ro_bytes_used r) /\ RootItem_LastSnapshot s = Ok (ro_last_snapshot r) /\
  RootItem_Flags s = Ok (ro_flags r) /\ RootItem_Refs s = Ok (ro_refs r) /\
  RootItem_DropProgress s = Ok (mkKey (k_objectid (ro_drop_progress r)) (k_type (ro_drop_progress r)) (k_offset (ro_drop_progress r))) /\
  RootItem_DropLevel s = Ok (ro_drop_level r) /\ RootItem_Level s = Ok (ro_level r) /\
  RootItem_GenerationV2 s = Ok (ro_generation_v2 r) /\ RootItem_UUID s = Ok (ro_uuid r) /\
  RootItem_ParentUUID s = Ok (ro_parent_uuid r) /\ RootItem_ReceivedUUID s = Ok (ro_received_uuid r) /\
  RootItem_CTransID s = Ok (ro_ctransid r) /\ RootItem_OTransID s = Ok (ro_otransid r) /\
  RootItem_STransID s = Ok (ro_stransid r) /\ RootItem_RTransID s = Ok (ro_rtransid r) /\
  RootItem_Ctime s = Ok (ts_sec (ro_ctime r), ts_nsec (ro_ctime r)) /\
  RootItem_Otime s = Ok (ts_sec (ro_otime r), ts_nsec (ro_otime r)) /\
  RootItem_Stime s = Ok (ts_sec (ro_stime r), ts_nsec (ro_stime r)) /\
  RootItem_Rtime s = Ok (ts_sec (ro_rtime r), ts_nsec (ro_rtime r)) /\
  RootItem_Reserved s = Ok [ro_res0 r; ro_res1 r; ro_res2 r; ro_res3 r; ro_res4 r; ro_res5 r; ro_res6 r; ro_res7 r] /\
  RootItem_IsGenerationV2 s = Ok (ro_generation r =? ro_generation_v2 r).
Proof.
  intros r s H _ (T1 & T2 & T3 & T4). split.
  { destruct (carries_from s [] _ H) as (i & E & Hi). exists i. split; [exact E|].
    unfold root_fields in Hi. exact (carries_prefix _ _ _ Hi). }
  assert (G1 : RootItem_Generation s = Ok (ro_generation r)) by exact (f64 _ _ 24 _ H eq_refl).
  assert (G2 : RootItem_GenerationV2 s = Ok (ro_generation_v2 r)) by exact (f64 _ _ 37 _ H eq_refl).
  assert (R : RootItem_Reserved s = Ok [ro_res0 r; ro_res1 r; ro_res2 r; ro_res3 r; ro_res4 r; ro_res5 r; ro_res6 r; ro_res7 r]).
  { unfold RootItem_Reserved.
    replace (at64 rootItemReserved s) with (Ok (ro_res0 r)) by (symmetry; exact (f64 _ _ 53 _ H eq_refl)).
    replace (at64 (rootItemReserved + 8) s) with (Ok (ro_res1 r)) by (symmetry; exact (f64 _ _ 54 _ H eq_refl)).
    replace (at64 (rootItemReserved + 16) s) with (Ok (ro_res2 r)) by (symmetry; exact (f64 _ _ 55 _ H eq_refl)).
    replace (at64 (rootItemReserved + 24) s) with (Ok (ro_res3 r)) by (symmetry; exact (f64 _ _ 56 _ H eq_refl)).
    replace (at64 (rootItemReserved + 32) s) with (Ok (ro_res4 r)) by (symmetry; exact (f64 _ _ 57 _ H eq_refl)).
    replace (at64 (rootItemReserved + 40) s) with (Ok (ro_res5 r)) by (symmetry; exact (f64 _ _ 58 _ H eq_refl)).
    replace (at64 (rootItemReserved + 48) s) with (Ok (ro_res6 r)) by (symmetry; exact (f64 _ _ 59 _ H eq_refl)).
    replace (at64 (rootItemReserved + 56) s) with (Ok (ro_res7 r)) by (symmetry; exact (f64 _ _ 60 _ H eq_refl)).
    reflexivity. }
  repeat match goal with |- _ /\ _ => split end;
    first [ exact R | exact G1 | exact G2 | unfold RootItem_IsGenerationV2; rewrite G1, G2; reflexivity
          | fld_upto H 24%nat 61%nat ].
Qed.
Theorem C06_root_ref : forall r s, carries s (root_ref_fields r) ->
  RootRef_DirID s = Ok (rr_dirid r) /\ RootRef_Sequence s = Ok (rr_sequence r) /\ RootRef_NameLen s = Ok (zlen (rr_name r)).
Proof. intros r s H. fields H 5%nat. Qed.
Theorem C06_extent_item : forall e s, carries s (extent_fields e) ->
  ExtentItem_Refs s = Ok (ex_refs e) /\ ExtentItem_Generation s = Ok (ex_generation e) /\ ExtentItem_Flags s = Ok (ex_flags e) /\
  ExtentItem_IsCompatV0 s = false.
Proof.
  intros e s H. pose proof H as (_ & Hf & rest & _ & Hl). rewrite zlen_ser in Hl by exact Hf.
  change (sumw (extent_fields e)) with 24 in Hl.
  repeat match goal with |- _ /\ _ => split end; first [fld_upto H O 5%nat | unfold ExtentItem_IsCompatV0; lia].
Qed.
(** non-vacuity: a packed structure is carried by its own bytes *)
Lemma carries_self fs rest : fits fs -> carries (sl (ser fs ++ rest)) fs.
Proof.
  intros H. split; [apply sl_wf|]. split; [exact H|]. exists rest. split; [reflexivity|].
  cbn [sl s_len]. rewrite zlen_app. pose proof (zlen_nonneg rest). lia.
Qed.
Definition ex_extent : d_extent := {| ex_refs := 3; ex_generation := 77; ex_flags := 2 |}.
Example C06_ex : carries (sl (ser (extent_fields ex_extent) ++ [x01])) (extent_fields ex_extent).
Proof. apply carries_self, fits_b; vm_compute; reflexivity. Qed.
Definition ex_inode : d_inode := {| in_generation := 5; in_transid := 6; in_size := 1234567; in_nbytes := 1234944;
  in_block_group := 0; in_nlink := 1; in_uid := 1000; in_gid := 1000; in_mode := 33188; in_rdev := 0; in_flags := 16;
  in_sequence := 9; in_res0 := 0; in_res1 := 0; in_res2 := 0; in_res3 := 0;
  in_atime := {| ts_sec := -5; ts_nsec := 1 |}; in_ctime := {| ts_sec := 1600000000; ts_nsec := 999999999 |};
  in_mtime := {| ts_sec := 0; ts_nsec := 0 |}; in_otime := {| ts_sec := 1; ts_nsec := 2 |} |}.
Example C06_ex_inode : carries (sl (ser (inode_fields ex_inode) ++ [])) (inode_fields ex_inode) /\ inode_times_ok ex_inode.
Proof.
  split; [apply carries_self, fits_b; vm_compute; reflexivity|].
  unfold inode_times_ok, ts_ok; cbn; lia.
Qed.
Print Assumptions C06_header. Print Assumptions C06_item. Print Assumptions C06_item_data. Print Assumptions C06_dev_extent.
Print Assumptions C06_dev_item. Print Assumptions C06_stripe. Print Assumptions C06_chunk.
Print Assumptions C06_inode_item. Print Assumptions C06_inode_ref. Print Assumptions C06_dir_item.
Print Assumptions C06_block_group. Print Assumptions C06_file_extent. Print Assumptions C06_root_item.
Print Assumptions C06_root_ref. Print Assumptions C06_extent_item.

(** ** C07: truncated structures.
    Table: accessor and the end (byte offset) of its field on disk. *)
Definition fixed_fields : list ((slice -> Res unit) * Z) :=
  let f {A} (g : slice -> Res A) := fun s => dropv (g s) in
  [ (f Header_FSID, 48); (f Header_ByteNr, 56); (f Header_Flags, 64); (f Header_ChunkTreeUUID, 80);
    (f Header_Generation, 88); (f Header_Owner, 96); (f Header_NrItems, 100); (f Header_Level, 101);
    (f Item_Key, 17); (f Item_Offset, 21); (f Item_Size, 25);
    (f DevExtent_ChunkTree, 8); (f DevExtent_ChunkObjectID, 16); (f DevExtent_ChunkOffset, 24); (f DevExtent_Length, 32);
    (f DevExtent_ChunkTreeUUID, 48);
    (f DevItem_DevID, 8); (f DevItem_TotalBytes, 16); (f DevItem_BytesUsed, 24); (f DevItem_IOAlign, 28);
    (f DevItem_IOWidth, 32); (f DevItem_SectorSize, 36); (f DevItem_Type, 44); (f DevItem_Generation, 52);
    (f DevItem_StartOffset, 60); (f DevItem_DevGroup, 64); (f DevItem_SeekSpeed, 65); (f DevItem_Bandwidth, 66);
    (f DevItem_UUID, 82); (f DevItem_FSID, 98);
    (f Stripe_DevID, 8); (f Stripe_Offset, 16); (f Stripe_DevUUID, 32);
    (f Chunk_Length, 8); (f Chunk_Owner, 16); (f Chunk_StripeLen, 24); (f Chunk_Type, 32); (f Chunk_IOAlign, 36);
    (f Chunk_IOWidth, 40); (f Chunk_SectorSize, 44); (f Chunk_NumStripes, 46); (f Chunk_SubStripes, 48);
    (f InodeItem_Generation, 8); (f InodeItem_TransID, 16); (f InodeItem_Size, 24); (f InodeItem_BlockGroup, 40);
    (f InodeItem_Nlink, 44); (f InodeItem_UID, 48); (f InodeItem_GID, 52); (f InodeItem_Mode, 56); (f InodeItem_Rdev, 64);
    (f InodeItem_Flags, 72); (f InodeItem_Sequence, 80); (f InodeItem_Atime, 124); (f InodeItem_Ctime, 136);
    (f InodeItem_Mtime, 148); (f InodeItem_Rtime, 160);
    (f InodeRefItem_Index, 8); (f InodeRefItem_NameLen, 10);
    (f DirItem_Location, 17); (f DirItem_TransID, 25); (f DirItem_DataLen, 27); (f DirItem_NameLen, 29); (f DirItem_Type, 30);
    (f BlockGroupItem_Used, 8); (f BlockGroupItem_ChunkObjectID, 16); (f BlockGroupItem_Flags, 24);
    (f FileExtentItem_Generation, 8); (f FileExtentItem_RAMBytes, 16); (f FileExtentItem_Compression, 17);
    (f FileExtentItem_Encryption, 18); (f FileExtentItem_OtherEncoding, 20); (f FileExtentItem_Type, 21);
    (f FileExtentItem_DiskByteNr, 29); (f FileExtentItem_DiskNumBytes, 37); (f FileExtentItem_Offset, 45);
    (f FileExtentItem_NumBytes, 53);
    (f RootItem_Generation, 168); (f RootItem_RootDirID, 176); (f RootItem_ByteNr, 184); (f RootItem_ByteLimit, 192);
    (f RootItem_BytesUsed, 200); (f RootItem_LastSnapshot, 208); (f RootItem_Flags, 216); (f RootItem_Refs, 220);
    (f RootItem_DropProgress, 237); (f RootItem_DropLevel, 238); (f RootItem_Level, 239); (f RootItem_GenerationV2, 247);
    (f RootItem_UUID, 263); (f RootItem_ParentUUID, 279); (f RootItem_ReceivedUUID, 295); (f RootItem_CTransID, 303);
    (f RootItem_OTransID, 311); (f RootItem_STransID, 319); (f RootItem_RTransID, 327); (f RootItem_Ctime, 339);
    (f RootItem_Otime, 351); (f RootItem_Stime, 363); (f RootItem_Rtime, 375);
    (f RootRef_DirID, 8); (f RootRef_Sequence, 16); (f RootRef_NameLen, 18);
    (f ExtentItem_Refs, 8); (f ExtentItem_Generation, 16); (f ExtentItem_Flags, 24) ].
(** positive part: on values with no slack capacity (what bbolt returns, or a
    fresh make), a field is readable iff the structure reaches its end *)
Theorem C07_truncated_partial : Forall (fun p => forall l,
    (snd p <= zlen l -> fst p (sl l) = Ok tt) /\ (zlen l < snd p -> fst p (sl l) = Panic)) fixed_fields.
Proof.
  unfold fixed_fields. repeat apply Forall_cons; [..|apply Forall_nil]; intros l; cbv beta zeta; cbn [fst snd];
  match goal with |- context [dropv (?g (sl l))] => let g' := eval red in g in change g with g' end;
  match goal with
  | |- context [dropv (at64 ?o (sl l))] => rewrite (at64_sl o l) by (vm_compute; congruence)
  | |- context [dropv (at32 ?o (sl l))] => rewrite (at32_sl o l) by (vm_compute; congruence)
  | |- context [dropv (at16 ?o (sl l))] => rewrite (at16_sl o l) by (vm_compute; congruence)
  | |- context [dropv (at8 ?o (sl l))] => rewrite (at8_sl o l) by (vm_compute; congruence)
  | |- context [dropv (atUUID ?o (sl l))] => rewrite (atUUID_sl o l) by (vm_compute; congruence)
  | |- context [dropv (atKey ?o (sl l))] => rewrite (atKey_sl o l) by (vm_compute; congruence)
  | |- context [dropv (atTime ?o (sl l))] => rewrite (atTime_sl o l) by (vm_compute; congruence)
  end;
  match goal with |- context [if ?a <=? zlen l then _ else _] =>
    let a' := eval vm_compute in a in change a with a'; split; intros H;
    destruct (a' <=? zlen l) eqn:E; try reflexivity; exfalso; lia end.
Qed.
(** the full statement is false: with slack capacity (sub-slices of a block,
    as the item and data slices of a leaf are) bytes behind the structure are
    returned.  A 3-byte inode item yields a generation and a transid from
    foreign bytes. *)
Theorem C07_truncated_refuted : exists s, slice_wf s /\ s_len s = 3 /\
  InodeItem_Generation s = Ok 0x8877665544332211.
Proof.
  exists (mkSlice (map zb [0x11;0x22;0x33;0x44;0x55;0x66;0x77;0x88]) 3). split.
  - unfold slice_wf; cbn; lia.
  - split; [reflexivity|vm_compute; reflexivity].
Qed.
Print Assumptions C07_truncated_partial. Print Assumptions C07_truncated_refuted.

(** ** C08: names *)
Theorem C08_names_exact :
  (forall d s, carries s (dir_item_fields d) -> zlen (di_name d) <= 255 -> DirItem_Name s = Ok (di_name d)) /\
  (forall r s, carries s (inode_ref_fields r) -> zlen (ir_name r) <= 255 -> InodeRefItem_Name s = Ok (ir_name r)) /\
  (forall r s, carries s (root_ref_fields r) -> zlen (rr_name r) <= 255 -> RootRef_Name s = Ok (rr_name r)).
Proof.
  split; [|split]; intros d s H Hz.
  - rewrite <- (firstn_all2 (n:=255) (di_name d)) by (unfold zlen in Hz; lia).
    exact (name_field s _ 5 7 _ _ _ H eq_refl eq_refl eq_refl eq_refl).
  - rewrite <- (firstn_all2 (n:=255) (ir_name d)) by (unfold zlen in Hz; lia).
    exact (name_field s _ 1 2 _ _ _ H eq_refl eq_refl eq_refl eq_refl).
  - rewrite <- (firstn_all2 (n:=255) (rr_name d)) by (unfold zlen in Hz; lia).
    exact (name_field s _ 2 3 _ _ _ H eq_refl eq_refl eq_refl eq_refl).
Qed.
(** over-long names are cut to 255 bytes *)
Theorem C08_names_long : forall d s, carries s (dir_item_fields d) -> DirItem_Name s = Ok (firstn 255 (di_name d)).
Proof. intros d s H. exact (name_field s _ 5 7 _ _ _ H eq_refl eq_refl eq_refl eq_refl). Qed.
(** for arbitrary record content: at most 255 bytes, a contiguous part of the record *)
Theorem C08_names_bounded : forall l n,
  (DirItem_Name (sl l) = Ok n -> zlen n <= 255 /\ exists pre post, l = pre ++ n ++ post /\ zlen pre = 30) /\
  (InodeRefItem_Name (sl l) = Ok n -> zlen n <= 255 /\ exists pre post, l = pre ++ n ++ post /\ zlen pre = 10) /\
  (RootRef_Name (sl l) = Ok n -> zlen n <= 255 /\ exists pre post, l = pre ++ n ++ post /\ zlen pre = 18).
Proof. intros l n. split; [|split]; exact (name_at_bounds _ _ l n). Qed.
Definition ex_dir : d_dir_item := {| di_location := {| k_objectid := 257; k_type := 1; k_offset := 0 |};
  di_transid := 8; di_type := 1; di_name := map zb [102;111;111]; di_data := [] |}.
Example C08_ex : carries (sl (ser (dir_item_fields ex_dir) ++ [])) (dir_item_fields ex_dir) /\ zlen (di_name ex_dir) <= 255.
Proof. split; [apply carries_self, fits_b; vm_compute; reflexivity|vm_compute; congruence]. Qed.
Print Assumptions C08_names_exact. Print Assumptions C08_names_long. Print Assumptions C08_names_bounded.

(** ** C09: xattr values.  An item lies in a block of at most 64 KiB together
    with the 101 byte block header and its own 25 byte item header. *)
Theorem C09_xattr_data : forall d s, carries s (dir_item_fields d) ->
  101 + 25 + zlen (ser (dir_item_fields d)) <= 65536 -> DirItem_Data s = Ok (di_data d).
Proof.
  intros d s H Hz. apply dir_data; [exact H|]. destruct H as (_ & Hf & _). rewrite zlen_ser in Hz by exact Hf.
  change (sumw (dir_item_fields d)) with
    (8+(1+(8+(8+(2+(2+(1+(zlen (di_name d) + (zlen (di_data d) + 0))))))))) in Hz. lia.
Qed.
Definition ex_xattr : d_dir_item := {| di_location := {| k_objectid := 0; k_type := 0; k_offset := 0 |};
  di_transid := 8; di_type := 8; di_name := map zb [117;46;97]; di_data := map zb [1;2;3;4] |}.
Example C09_ex : carries (sl (ser (dir_item_fields ex_xattr) ++ [])) (dir_item_fields ex_xattr) /\
  101 + 25 + zlen (ser (dir_item_fields ex_xattr)) <= 65536.
Proof. split; [apply carries_self, fits_b; vm_compute; reflexivity|vm_compute; congruence]. Qed.
Print Assumptions C09_xattr_data.

(** ** C10: inline data.  Full statement: the stored inline bytes, for every
    inline extent. Holds when the recorded RAM size is the stored size
    (uncompressed) and at most 16 KiB. *)
Theorem C10_inline_partial : forall e s, carries s (fe_inline_fields e) ->
  fe_ram_bytes (fi_head e) = zlen (fi_data e) -> zlen (fi_data e) <= 16384 ->
  FileExtentItem_Data s = Ok (fi_data e).
Proof. exact (fun e s => inline_data s e). Qed.
Definition ex_inline (ram comp : Z) : d_fe_inline := {| fi_head := {| fe_generation := 7; fe_ram_bytes := ram;
  fe_compression := comp; fe_encryption := 0; fe_other_encoding := 0; fe_type := 0 |}; fi_data := map zb [104;105;33] |}.
Example C10_ex : carries (sl (ser (fe_inline_fields (ex_inline 3 0)) ++ [])) (fe_inline_fields (ex_inline 3 0)).
Proof. apply carries_self, fits_b; vm_compute; reflexivity. Qed.
(** a compressed inline extent (3 stored bytes that expand to 40) aborts *)
Theorem C10_inline_refuted : exists e, carries (sl (ser (fe_inline_fields e))) (fe_inline_fields e) /\
  fe_compression (fi_head e) = 1 /\ FileExtentItem_Data (sl (ser (fe_inline_fields e))) = Panic.
Proof.
  exists (ex_inline 40 1). split; [|split; [reflexivity|vm_compute; reflexivity]].
  rewrite <- (app_nil_r (ser (fe_inline_fields (ex_inline 40 1)))) at 1. apply carries_self, fits_b; vm_compute; reflexivity.
Qed.
Print Assumptions C10_inline_partial. Print Assumptions C10_inline_refuted.

(** ** C13: leaf parsing inverts leaf writing *)
Theorem C13_leaf : forall h bs es gap, leaf_ok h bs es gap ->
  let l := sl (leaf_block h bs es gap) in
  Leaf_Len l = Ok (zlen es) /\
  (forall i e, nth_error es i = Some e ->
     Leaf_Key l (Z.of_nat i) = Ok (mkKey (k_objectid (le_key e)) (k_type (le_key e)) (k_offset (le_key e))) /\
     (d <- Leaf_Data l (Z.of_nat i) ;; Ok (sbytes d)) = Ok (le_data e)) /\
  exists items, Leaf_Items l = Ok items /\ length items = length es /\
    forall i e, nth_error es i = Some e -> exists it, nth_error items i = Some it /\
      Leaf_Item l (Z.of_nat i) = Ok it /\
      Item_Key it = Ok (mkKey (k_objectid (le_key e)) (k_type (le_key e)) (k_offset (le_key e))) /\
      Item_Offset it = Ok (bs - 101 - zlen (concat (map le_data (firstn (S i) es)))) /\
      Item_Size it = Ok (zlen (le_data e)).
Proof.
  intros h bs es gap OK l. split; [exact (leaf_Len h bs es gap OK)|]. split.
  - intros i e Hn. split; [exact (leaf_Key h bs es gap OK i e Hn) | exact (leaf_Data h bs es gap OK i e Hn)].
  - unfold Leaf_Items, l. rewrite (leaf_Len h bs es gap OK). cbn [rbind].
    pose proof (leaf_room h bs es gap OK) as Hroom. pose proof (leaf_cap h bs es gap OK) as Hcap.
    pose proof (zlen_nonneg es) as Hes.
    destruct (Leaf_Items_from_ok (sl (leaf_block h bs es gap)) (Z.to_nat (zlen es)) 0 (sl_wf _) ltac:(lia)) as (r & Hr & HL & Hj).
    { rewrite Hcap. lia. }
    exists r. split; [exact Hr|]. split; [unfold zlen in HL; lia|].
    intros i e Hn. assert (Hi : (i < length es)%nat) by (apply nth_error_Some; congruence).
    specialize (Hj i ltac:(unfold zlen; lia)). rewrite Z.add_0_l in Hj.
    exists (nth i r (sl [])). split; [apply nth_error_nth'; unfold zlen in HL; lia|]. split; [exact Hj|].
    destruct (leaf_Offset_Size h bs es gap OK i e _ Hn Hj) as [H1 H2].
    split; [|split; [exact H1|exact H2]].
    pose proof (leaf_Key h bs es gap OK i e Hn) as HK. rewrite <- HK.
    pose proof (leaf_i_lt h bs es gap OK i e Hn) as Hlt.
    pose proof (sl_wf (leaf_block h bs es gap)) as Hwf.
    pose proof (leaf_len h bs es gap OK) as Hlen.
    unfold Leaf_Item in Hj. change HeaderLen with 101 in *. change ItemLen with 25 in *.
    apply go_slice_inv in Hj as (Ha & Hb & ->).
    unfold Item_Key, Leaf_Key. change HeaderLen with 101. change ItemLen with 25. change itemKey with 0.
    rewrite Z.add_0_r. set (o := 101 + Z.of_nat i * 25) in *.
    assert (Hwf2 : slice_wf (mkSlice (skipn (Z.to_nat o) (s_arr (sl (leaf_block h bs es gap)))) (o + 25 - o))).
    { unfold slice_wf; cbn [s_arr s_len]. unfold scap in Hcap. rewrite zlen_skipn by lia. lia. }
    rewrite !atKey_parts by (try exact Hwf; try exact Hwf2; rewrite ?Hlen; cbn [s_len]; lia).
    unfold slice_wf in Hwf2; cbn [s_arr s_len] in Hwf2. unfold scap in Hcap.
    rewrite !at64_exact by (first [exact Hwf | unfold slice_wf; cbn [s_arr s_len]; exact Hwf2]).
    rewrite !at8_exact. cbn [s_len s_arr]. rewrite Hlen.
    assert (R : forall k, 0 <= k <= 9 -> readable k 8 (mkSlice (skipn (Z.to_nat o) (s_arr (sl (leaf_block h bs es gap)))) (o + 25 - o)) = true).
    { intros k Hk. apply readable_iff. unfold scap. cbn [s_len s_arr]. rewrite zlen_skipn by lia. lia. }
    assert (R2 : forall k, 0 <= k <= 9 -> readable (o + k) 8 (sl (leaf_block h bs es gap)) = true).
    { intros k Hk. apply readable_iff. unfold scap. rewrite Hcap, Hlen. lia. }
    assert (B : forall k, 0 <= k -> bytes_at k 8 (mkSlice (skipn (Z.to_nat o) (s_arr (sl (leaf_block h bs es gap)))) (o + 25 - o))
       = bytes_at (o + k) 8 (sl (leaf_block h bs es gap))).
    { intros k Hk. unfold bytes_at. cbn [s_arr]. rewrite skipn_skipn', Z2Nat.inj_add by lia. reflexivity. }
    rewrite (R 0), (R (0 + 9)), (R2 (9)) by lia. specialize (R2 0). rewrite Z.add_0_r in R2. rewrite R2 by lia.
    rewrite !B by lia. rewrite Z.add_0_r. rewrite nth_skipn'.
    replace ((0 <=? 0 + 8) && (0 + 8 <? o + 25 - o)) with true by lia.
    replace ((0 <=? o + 8) && (o + 8 <? bs)) with true by lia.
    replace (Z.to_nat o + Z.to_nat (0 + 8))%nat with (Z.to_nat (o + 8)) by lia. reflexivity.
Qed.
Definition ex_leaf_h : d_header := {| h_csum := repeat x00 32; h_fsid := repeat x0a 16; h_bytenr := 65536; h_flags := 1;
  h_chunk_tree_uuid := repeat x0b 16; h_generation := 9; h_owner := 5; h_nritems := 2; h_level := 0 |}.
Definition ex_leaf_es : list leaf_entry :=
  [ {| le_key := {| k_objectid := 256; k_type := 1; k_offset := 0 |}; le_data := repeat x01 160 |};
    {| le_key := {| k_objectid := 256; k_type := 12; k_offset := 256 |}; le_data := repeat x02 12 |} ].
Example C13_ex : leaf_ok ex_leaf_h 4096 ex_leaf_es (repeat x00 (4096 - 101 - 50 - 172)).
Proof.
  unfold leaf_ok. repeat split; try (apply fits_b); vm_compute; reflexivity.
Qed.
Print Assumptions C13_leaf.

(** ** C14: corrupt item counts.  Exact condition for an abort, and hence a
    refutation of "never aborts". *)
Theorem C14_items_abort_iff : forall l, 101 <= zlen l < 2^32 ->
  (Leaf_Items (sl l) = Panic <-> exists n, Header_NrItems (sl l) = Ok n /\ (zlen l - 101) / 25 < n).
Proof. exact Leaf_Items_panic_iff. Qed.
(** when the count is plausible, all of it is read *)
Theorem C14_items_partial : forall l n, 101 <= zlen l < 2^32 -> Header_NrItems (sl l) = Ok n -> n <= (zlen l - 101) / 25 ->
  exists r, Leaf_Items (sl l) = Ok r /\ zlen r = n /\
    forall j, 0 <= j < n -> Leaf_Item (sl l) j = Ok (nth (Z.to_nat j) r (sl [])).
Proof. exact (fun l n H => Leaf_Items_all l H n). Qed.
Theorem C14_items_refuted : exists l, zlen l = 4096 /\ Leaf_Items (sl l) = Panic.
Proof.
  set (l := repeat x00 96 ++ [xff;xff;x00;x00] ++ repeat x00 3996).
  assert (E : zlen l = 4096) by (vm_compute; reflexivity).
  exists l. split; [exact E|]. apply Leaf_Items_panic_iff; [rewrite E; lia|].
  exists 65535. split; [vm_compute; reflexivity|rewrite E; vm_compute; reflexivity].
Qed.
Print Assumptions C14_items_abort_iff. Print Assumptions C14_items_partial. Print Assumptions C14_items_refuted.

(** ** C15: whatever the item header claims, the data is part of the block *)
Theorem C15_leaf_data_inside : forall l i d, 0 <= i -> Leaf_Data (sl l) i = Ok d ->
  exists it off sz pre post, Leaf_Item (sl l) i = Ok it /\ Item_Offset it = Ok off /\ Item_Size it = Ok sz /\
    l = pre ++ sbytes d ++ post /\ zlen (sbytes d) <= sz /\ zlen pre = (101 + off) mod 2^32.
Proof. exact Leaf_Data_bounds. Qed.
(** but the call itself aborts when the claimed offset lies outside *)
Theorem C15_leaf_data_aborts : exists l, zlen l = 4096 /\ Leaf_Data (sl l) 0 = Panic.
Proof.
  exists (repeat x00 101 ++ repeat x00 17 ++ [x00;x20;x00;x00] ++ repeat x00 3974).
  split; vm_compute; reflexivity.
Qed.
Example C15_ex : exists d, Leaf_Data (sl (leaf_block ex_leaf_h 4096 ex_leaf_es (repeat x00 (4096 - 101 - 50 - 172)))) 1 = Ok d
  /\ sbytes d = repeat x02 12.
Proof. eexists; split; vm_compute; reflexivity. Qed.
Print Assumptions C15_leaf_data_inside. Print Assumptions C15_leaf_data_aborts.

(** pkg/btrfs: slice.go, btrfs.go (structures), leaf.go.
    Every accessor is the Go expression on the slice model of Go.v. *)
From Verif Require Export Go.

(** ** pkg/btrfs/slice.go *)
(* slice.go:15 *)
Definition SliceUint16LE (b : slice) : Res Z := s <- go_to b 2 ;; Ok (le_decode (sbytes s)).
(* slice.go:16 *)
Definition SliceUint32LE (b : slice) : Res Z := s <- go_to b 4 ;; Ok (le_decode (sbytes s)).
(* slice.go:17 *)
Definition SliceUint64LE (b : slice) : Res Z := s <- go_to b 8 ;; Ok (le_decode (sbytes s)).
(* slice.go:19-23; uuid.UUIDSize = 16 (uuid.go:14); a UUID is its 16 bytes *)
Definition UUIDSize : Z := 16.
Definition SliceUUID (b : slice) : Res (list byte) := s <- go_to b UUIDSize ;; Ok (sbytes s). (* slice.go:19 *)

(* btrfs.go:274-278 *)
Record Key := mkKey { ObjectID : Z; KType : Z; KOffset : Z }.
(* btrfs.go:280 *)
Definition KeyLen : Z := 8 + 1 + 8.

(* slice.go:25-27 *)
Definition SliceKey (b : slice) : Res Key :=
  o <- SliceUint64LE b ;;
  t <- go_index b 8 ;;
  b9 <- go_from b 9 ;;
  f <- SliceUint64LE b9 ;;
  Ok (mkKey o t f).

(* slice.go:29-31; time.Unix(sec int64, nsec int64): the pair (seconds,
   nanoseconds) after the normalisation time.Unix does for nsec outside
   [0, 1e9); [time_unix] is (t.Unix(), t.Nanosecond()).  The seconds are
   wrapped to int64 as Go's addition does. *)
Definition time_unix (sec nsec : Z) : Z * Z :=
  (i64 (sec + nsec / 1000000000), nsec mod 1000000000).
(* slice.go:29 *)
Definition SliceTimeLE (b : slice) : Res (Z * Z) :=
  s <- SliceUint64LE b ;;
  b8 <- go_from b 8 ;;
  n <- SliceUint32LE b8 ;;
  Ok (time_unix (i64 s) n).

(** x[off:] followed by a fixed size read; the shape of every accessor *)
Definition at16 (off : Z) (x : slice) : Res Z := b <- go_from x off ;; SliceUint16LE b.
Definition at32 (off : Z) (x : slice) : Res Z := b <- go_from x off ;; SliceUint32LE b.
Definition at64 (off : Z) (x : slice) : Res Z := b <- go_from x off ;; SliceUint64LE b.
Definition atUUID (off : Z) (x : slice) : Res (list byte) := b <- go_from x off ;; SliceUUID b.
Definition atKey (off : Z) (x : slice) : Res Key := b <- go_from x off ;; SliceKey b.
Definition atTime (off : Z) (x : slice) : Res (Z * Z) := b <- go_from x off ;; SliceTimeLE b.
Definition at8 (off : Z) (x : slice) : Res Z := go_index x off.

(** ** Object ids and key types used by the model (btrfs.go:34-116, 126-272) *)
Definition RootTreeObjectID : Z := 1. (* btrfs.go:37 *)
Definition ExtentTreeObjectID : Z := 2.
Definition ChunkTreeObjectID : Z := 3. (* btrfs.go:45 *)
Definition FSTreeObjectID : Z := 5.
Definition DevItemsObjectID : Z := 1. (* btrfs.go:108 *)
Definition FirstFreeObjectID : Z := 256.
(* ^uint64(256) + 1 *)
Definition LastFreeObjectID : Z := 2^64 - 256. (* btrfs.go:102 *)
Definition InodeItemKey : Z := 1.
Definition XAttrItemKey : Z := 24. (* btrfs.go:134 *)
Definition DirItemKey : Z := 84.
Definition ExtentDataKey : Z := 108. (* btrfs.go:145 *)
Definition RootItemKey : Z := 132.
Definition ExtentItemKey : Z := 168. (* btrfs.go:166 *)
Definition DevItemKey : Z := 216.
Definition ChunkItemKey : Z := 228. (* btrfs.go:202 *)
(* btrfs.go:14-32 *)
Definition X86RegularPageSize : Z := 4096.
Definition DefaultBlockSize : Z := 16384. (* btrfs.go:23 *)
Definition SuperInfoOffset : Z := 0x10000.
Definition SuperInfoOffset2 : Z := 0x4000000. (* btrfs.go:29 *)
Definition SuperInfoOffset3 : Z := 0x4000000000.
Definition SuperInfoOffset4 : Z := 0x4000000000000. (* btrfs.go:31 *)
(* btrfs.go:120 *)
Definition CSumSize : Z := 32.

(** ** DevExtent, btrfs.go:309-325 *)
Definition devExtentChunkTree := 0. (* btrfs.go:313 *)
Definition devExtentChunkObjectID := devExtentChunkTree + 8.
Definition devExtentChunkOffset := devExtentChunkObjectID + 8. (* btrfs.go:315 *)
Definition devExtentLength := devExtentChunkOffset + 8.
Definition devExtentChunkTreeUUID := devExtentLength + 8. (* btrfs.go:317 *)
Definition DevExtentLen := devExtentChunkTreeUUID + UUIDSize.
Definition DevExtent_ChunkTree := at64 devExtentChunkTree. (* btrfs.go:321 *)
Definition DevExtent_ChunkObjectID := at64 devExtentChunkObjectID.
Definition DevExtent_ChunkOffset := at64 devExtentChunkOffset. (* btrfs.go:323 *)
Definition DevExtent_Length := at64 devExtentLength.
Definition DevExtent_ChunkTreeUUID := atUUID devExtentChunkTreeUUID. (* btrfs.go:325 *)

(** ** DevItem, btrfs.go:327-388 *)
Definition devItemDevID := 0. (* btrfs.go:330 *)
Definition devItemTotalBytes := devItemDevID + 8.
Definition devItemBytesUsed := devItemTotalBytes + 8. (* btrfs.go:332 *)
Definition devItemIOAlign := devItemBytesUsed + 8.
Definition devItemIOWidth := devItemIOAlign + 4. (* btrfs.go:334 *)
Definition devItemSectorSize := devItemIOWidth + 4.
Definition devItemType := devItemSectorSize + 4. (* btrfs.go:336 *)
Definition devItemGeneration := devItemType + 8.
Definition devItemStartOffset := devItemGeneration + 8. (* btrfs.go:338 *)
Definition devItemDevGroup := devItemStartOffset + 8.
Definition devItemSeekSpeed := devItemDevGroup + 4. (* btrfs.go:340 *)
Definition devItemBandwidth := devItemSeekSpeed + 1.
Definition devItemUUID := devItemBandwidth + 1. (* btrfs.go:342 *)
Definition devItemFSID := devItemUUID + UUIDSize.
Definition DevItemLen := devItemFSID + UUIDSize. (* btrfs.go:344 *)
Definition DevItem_DevID := at64 devItemDevID.
Definition DevItem_TotalBytes := at64 devItemTotalBytes. (* btrfs.go:351 *)
Definition DevItem_BytesUsed := at64 devItemBytesUsed.
Definition DevItem_IOAlign := at32 devItemIOAlign. (* btrfs.go:357 *)
Definition DevItem_IOWidth := at32 devItemIOWidth.
Definition DevItem_SectorSize := at32 devItemSectorSize. (* btrfs.go:363 *)
Definition DevItem_Type := at64 devItemType.
Definition DevItem_Generation := at64 devItemGeneration. (* btrfs.go:369 *)
Definition DevItem_StartOffset := at64 devItemStartOffset.
Definition DevItem_DevGroup := at32 devItemDevGroup. (* btrfs.go:376 *)
Definition DevItem_SeekSpeed := at8 devItemSeekSpeed.
Definition DevItem_Bandwidth := at8 devItemBandwidth. (* btrfs.go:382 *)
Definition DevItem_UUID := atUUID devItemUUID.
Definition DevItem_FSID := atUUID devItemFSID. (* btrfs.go:388 *)

(** ** Stripe, btrfs.go:390-402 *)
Definition stripeDevID := 0. (* btrfs.go:394 *)
Definition stripeOffset := stripeDevID + 8.
Definition stripeDevUUID := stripeOffset + 8. (* btrfs.go:396 *)
Definition stripeEnd := stripeDevUUID + UUIDSize.
Definition Stripe_DevID := at64 stripeDevID. (* btrfs.go:400 *)
Definition Stripe_Offset := at64 stripeOffset.
Definition Stripe_DevUUID := atUUID stripeDevUUID. (* btrfs.go:402 *)

(** ** Chunk, btrfs.go:404-450 *)
Definition chunkLength := 0. (* btrfs.go:407 *)
Definition chunkOwner := chunkLength + 8.
Definition chunkStripeLen := chunkOwner + 8. (* btrfs.go:409 *)
Definition chunkType := chunkStripeLen + 8.
Definition chunkIOAlign := chunkType + 8. (* btrfs.go:411 *)
Definition chunkIOWidth := chunkIOAlign + 4.
Definition chunkSectorSize := chunkIOWidth + 4. (* btrfs.go:413 *)
Definition chunkNumStripes := chunkSectorSize + 4.
Definition chunkSubStripes := chunkNumStripes + 2. (* btrfs.go:415 *)
Definition chunkStripes := chunkSubStripes + 2.
Definition Chunk_Length := at64 chunkLength. (* btrfs.go:420 *)
Definition Chunk_Owner := at64 chunkOwner.
Definition Chunk_StripeLen := at64 chunkStripeLen. (* btrfs.go:425 *)
Definition Chunk_Type := at64 chunkType.
Definition Chunk_IOAlign := at32 chunkIOAlign. (* btrfs.go:431 *)
Definition Chunk_IOWidth := at32 chunkIOWidth.
Definition Chunk_SectorSize := at32 chunkSectorSize. (* btrfs.go:437 *)
Definition Chunk_NumStripes := at16 chunkNumStripes.
Definition Chunk_SubStripes := at16 chunkSubStripes. (* btrfs.go:445 *)
(* btrfs.go:448-450: i is uint16, the offset is computed in uint16 *)
Definition Chunk_Stripe (c : slice) (i : Z) : Res slice :=
  go_from c (u16 (chunkStripes + u16 (i * stripeEnd))).

(** ** InodeItem, btrfs.go:452-502 *)
Definition inodeItemGeneration := 0. (* btrfs.go:457 *)
Definition inodeItemTransID := inodeItemGeneration + 8.
Definition inodeItemSize := inodeItemTransID + 8. (* btrfs.go:460 *)
Definition inodeItemNbytes := inodeItemSize + 8.
Definition inodeItemBlockGroup := inodeItemNbytes + 8. (* btrfs.go:462 *)
Definition inodeItemNlink := inodeItemBlockGroup + 8.
Definition inodeItemUID := inodeItemNlink + 4. (* btrfs.go:464 *)
Definition inodeItemGID := inodeItemUID + 4.
Definition inodeItemMode := inodeItemGID + 4. (* btrfs.go:466 *)
Definition inodeItemRdev := inodeItemMode + 4.
Definition inodeItemFlags := inodeItemRdev + 8. (* btrfs.go:468 *)
Definition inodeItemSequence := inodeItemFlags + 8.
Definition inodeItemReserved := inodeItemSequence + 8. (* btrfs.go:473 *)
Definition inodeItemAtime := inodeItemReserved + 32.
Definition inodeItemCtime := inodeItemAtime + 12. (* btrfs.go:475 *)
Definition inodeItemMtime := inodeItemCtime + 12.
Definition inodeItemOtime := inodeItemMtime + 12. (* btrfs.go:477 *)
Definition InodeItemLen := inodeItemOtime + 12.
Definition InodeItem_Generation := at64 inodeItemGeneration. (* btrfs.go:481 *)
Definition InodeItem_TransID := at64 inodeItemTransID.
Definition InodeItem_Size := at64 inodeItemSize. (* btrfs.go:483 *)
Definition InodeItem_BlockGroup := at64 inodeItemBlockGroup.
Definition InodeItem_Nlink := at32 inodeItemNlink. (* btrfs.go:485 *)
Definition InodeItem_UID := at32 inodeItemUID.
Definition InodeItem_GID := at32 inodeItemGID. (* btrfs.go:487 *)
Definition InodeItem_Mode := at32 inodeItemMode.
Definition InodeItem_Rdev := at64 inodeItemRdev. (* btrfs.go:489 *)
Definition InodeItem_Flags := at64 inodeItemFlags.
Definition InodeItem_Sequence := at64 inodeItemSequence. (* btrfs.go:491 *)
Definition InodeItem_Reserved (i : slice) : Res (list Z) :=
  a <- at64 inodeItemReserved i ;; b <- at64 (inodeItemReserved + 8) i ;;
  c <- at64 (inodeItemReserved + 16) i ;; d <- at64 (inodeItemReserved + 24) i ;;
  Ok [a; b; c; d].
Definition InodeItem_Atime := atTime inodeItemAtime. (* btrfs.go:499 *)
Definition InodeItem_Ctime := atTime inodeItemCtime.
Definition InodeItem_Mtime := atTime inodeItemMtime. (* btrfs.go:501 *)
(* btrfs.go:502: the method is called Rtime but reads the otime field *)
Definition InodeItem_Rtime := atTime inodeItemOtime.

(** ** names: btrfs.go:515-521, 555-561, 792-798 (same code three times):
    [l := int(NameLen()); if l > 255 { l = 255 }; string(x[name : name+l])] *)
Definition clampName (l : Z) : Z := if 255 <? l then 255 else l.
Definition name_at (lenOff nameOff : Z) (x : slice) : Res (list byte) :=
  l <- at16 lenOff x ;;
  s <- go_slice x nameOff (nameOff + clampName l) ;;
  Ok (sbytes s).

(** ** InodeRefItem, btrfs.go:504-521 *)
Definition inodeRefItemIndex := 0. (* btrfs.go:508 *)
Definition inodeRefItemNameLen := inodeRefItemIndex + 8.
Definition inodeRefItemName := inodeRefItemNameLen + 2. (* btrfs.go:510 *)
Definition InodeRefItem_Index := at64 inodeRefItemIndex.
Definition InodeRefItem_NameLen := at16 inodeRefItemNameLen. (* btrfs.go:514 *)
Definition InodeRefItem_Name := name_at inodeRefItemNameLen inodeRefItemName.

(** ** DirItem, btrfs.go:523-569 *)
Definition FtUnknown := 0. (* btrfs.go:525 *)
Definition FtRegFile := 1.
Definition FtDir := 2. (* btrfs.go:527 *)
Definition FtChrdev := 3.
Definition FtBlkdev := 4. (* btrfs.go:529 *)
Definition FtFifo := 5.
Definition FtSock := 6. (* btrfs.go:531 *)
Definition FtSymlink := 7.
Definition FtXattr := 8. (* btrfs.go:533 *)
Definition dirItemLocation := 0.
Definition dirItemTransID := dirItemLocation + 8 + 1 + 8. (* btrfs.go:542 *)
Definition dirItemDataLen := dirItemTransID + 8.
Definition dirItemNameLen := dirItemDataLen + 2. (* btrfs.go:544 *)
Definition dirItemType := dirItemNameLen + 2.
Definition dirItemName := dirItemType + 1. (* btrfs.go:546 *)
Definition DirItem_Location := atKey dirItemLocation.
Definition DirItem_TransID := at64 dirItemTransID. (* btrfs.go:550 *)
Definition DirItem_DataLen := at16 dirItemDataLen.
Definition DirItem_NameLen := at16 dirItemNameLen. (* btrfs.go:552 *)
Definition DirItem_Type := at8 dirItemType.
Definition DirItem_Name := name_at dirItemNameLen dirItemName. (* btrfs.go:555-561 *)
(* btrfs.go:563-566: dirItemName is an untyped constant, so the sum and the
   end are computed in uint16 *)
(* btrfs.go:563-566 *)
Definition DirItem_Data (d : slice) : Res (list byte) :=
  nl <- DirItem_NameLen d ;;
  let o := u16 (dirItemName + nl) in
  dl <- DirItem_DataLen d ;;
  s <- go_slice d o (u16 (o + dl)) ;;
  Ok (sbytes s).
(* btrfs.go:568-569 *)
Definition DirItem_IsDir (d : slice) : Res bool := t <- DirItem_Type d ;; Ok (t =? FtDir).
(* btrfs.go:569 *)
Definition DirItem_IsSubvolume (d : slice) : Res bool :=
  k <- DirItem_Location d ;; Ok (KType k =? RootItemKey).

(** ** BlockGroupItem, btrfs.go:585-597 *)
Definition blockGroupItemUsed := 0. (* btrfs.go:589 *)
Definition blockGroupItemChunkObjectID := blockGroupItemUsed + 8.
Definition blockGroupItemFlags := blockGroupItemChunkObjectID + 8. (* btrfs.go:591 *)
Definition blockGroupItemEnd := blockGroupItemFlags + 8.
Definition BlockGroupItem_Used := at64 blockGroupItemUsed. (* btrfs.go:595 *)
Definition BlockGroupItem_ChunkObjectID := at64 blockGroupItemChunkObjectID.
Definition BlockGroupItem_Flags := at64 blockGroupItemFlags. (* btrfs.go:597 *)

(** ** FileExtentItem, btrfs.go:599-672 *)
Definition FileExtentInline := 0. (* btrfs.go:601 *)
Definition FileExtentReg := 1.
Definition FileExtentPreAlloc := 2. (* btrfs.go:603 *)
Definition fileExtentItemGeneration := 0.
Definition fileExtentItemRAMBytes := fileExtentItemGeneration + 8. (* btrfs.go:611 *)
Definition fileExtentItemCompression := fileExtentItemRAMBytes + 8.
Definition fileExtentItemEncryption := fileExtentItemCompression + 1. (* btrfs.go:613 *)
Definition fileExtentItemOtherEncoding := fileExtentItemEncryption + 1.
Definition fileExtentItemType := fileExtentItemOtherEncoding + 2. (* btrfs.go:615 *)
Definition fileExtentItemDiskByteNr := fileExtentItemType + 1.
Definition fileExtentItemDiskNumBytes := fileExtentItemDiskByteNr + 8. (* btrfs.go:619 *)
Definition fileExtentItemOffset := fileExtentItemDiskNumBytes + 8.
Definition fileExtentItemNumBytes := fileExtentItemOffset + 8. (* btrfs.go:621 *)
Definition FileExtentItemEnd := fileExtentItemNumBytes + 8.
Definition FileExtentItem_Generation := at64 fileExtentItemGeneration. (* btrfs.go:626 *)
Definition FileExtentItem_RAMBytes := at64 fileExtentItemRAMBytes.
Definition FileExtentItem_Compression := at8 fileExtentItemCompression. (* btrfs.go:638 *)
Definition FileExtentItem_Encryption := at8 fileExtentItemEncryption.
Definition FileExtentItem_OtherEncoding := at16 fileExtentItemOtherEncoding. (* btrfs.go:642 *)
Definition FileExtentItem_Type := at8 fileExtentItemType.
Definition FileExtentItem_DiskByteNr := at64 fileExtentItemDiskByteNr. (* btrfs.go:650 *)
Definition FileExtentItem_DiskNumBytes := at64 fileExtentItemDiskNumBytes.
Definition FileExtentItem_Offset := at64 fileExtentItemOffset. (* btrfs.go:657 *)
Definition FileExtentItem_NumBytes := at64 fileExtentItemNumBytes.
(* btrfs.go:663 *)
Definition FileExtentItem_IsInline (i : slice) : Res bool :=
  t <- FileExtentItem_Type i ;; Ok (t =? FileExtentInline).
(* btrfs.go:666-672; int(RAMBytes()) is a two's complement conversion, so l can
   be negative, in which case the slice expression panics *)
(* btrfs.go:666-672 *)
Definition FileExtentItem_Data (i : slice) : Res (list byte) :=
  r <- FileExtentItem_RAMBytes i ;;
  let l0 := i64 r in
  let l := if DefaultBlockSize <? l0 then DefaultBlockSize else l0 in
  s <- go_slice i fileExtentItemDiskByteNr (fileExtentItemDiskByteNr + l) ;;
  Ok (sbytes s).

(** ** CSumItem, btrfs.go:674-688: copy into a zeroed 32 byte array *)
(* btrfs.go:681-688 *)
Definition CSumItem_CSum (i : slice) : Res (list byte) :=
  s <- go_from i 0 ;;
  let d := firstn 32 (sbytes s) in
  Ok (d ++ repeat x00 (32 - length d)).

(** ** RootItem, btrfs.go:690-775 *)
Definition rootItemInode := 0. (* btrfs.go:694 *)
Definition rootItemGeneration := rootItemInode + InodeItemLen.
Definition rootItemRootDirID := rootItemGeneration + 8. (* btrfs.go:696 *)
Definition rootItemByteNr := rootItemRootDirID + 8.
Definition rootItemByteLimit := rootItemByteNr + 8. (* btrfs.go:698 *)
Definition rootItemBytesUsed := rootItemByteLimit + 8.
Definition rootItemLastSnapshot := rootItemBytesUsed + 8. (* btrfs.go:700 *)
Definition rootItemFlags := rootItemLastSnapshot + 8.
Definition rootItemRefs := rootItemFlags + 8. (* btrfs.go:702 *)
Definition rootItemDropProgress := rootItemRefs + 4.
Definition rootItemDropLevel := rootItemDropProgress + 17. (* btrfs.go:704 *)
Definition rootItemLevel := rootItemDropLevel + 1.
Definition rootItemGenerationV2 := rootItemLevel + 1. (* btrfs.go:708 *)
Definition rootItemUUID := rootItemGenerationV2 + 8.
Definition rootItemParentUUID := rootItemUUID + UUIDSize. (* btrfs.go:710 *)
Definition rootItemReceivedUUID := rootItemParentUUID + UUIDSize.
Definition rootItemCTransID := rootItemReceivedUUID + UUIDSize. (* btrfs.go:712 *)
Definition rootItemOTransID := rootItemCTransID + 8.
Definition rootItemSTransID := rootItemOTransID + 8. (* btrfs.go:714 *)
Definition rootItemRTransID := rootItemSTransID + 8.
Definition rootItemCtime := rootItemRTransID + 8. (* btrfs.go:716 *)
Definition rootItemOtime := rootItemCtime + 12.
Definition rootItemStime := rootItemOtime + 12. (* btrfs.go:718 *)
Definition rootItemRtime := rootItemStime + 12.
Definition rootItemReserved := rootItemRtime + 12. (* btrfs.go:720 *)
Definition RootItemLen := rootItemReserved + 8*8.
Definition RootItem_Inode (i : slice) : Res slice := go_from i rootItemInode. (* btrfs.go:724 *)
Definition RootItem_Generation := at64 rootItemGeneration.
Definition RootItem_RootDirID := at64 rootItemRootDirID. (* btrfs.go:726 *)
Definition RootItem_ByteNr := at64 rootItemByteNr.
Definition RootItem_ByteLimit := at64 rootItemByteLimit. (* btrfs.go:728 *)
Definition RootItem_BytesUsed := at64 rootItemBytesUsed.
Definition RootItem_LastSnapshot := at64 rootItemLastSnapshot. (* btrfs.go:730 *)
Definition RootItem_Flags := at64 rootItemFlags.
Definition RootItem_Refs := at32 rootItemRefs. (* btrfs.go:732 *)
Definition RootItem_DropProgress := atKey rootItemDropProgress.
Definition RootItem_DropLevel := at8 rootItemDropLevel. (* btrfs.go:734 *)
Definition RootItem_Level := at8 rootItemLevel.
Definition RootItem_GenerationV2 := at64 rootItemGenerationV2. (* btrfs.go:743 *)
Definition RootItem_UUID := atUUID rootItemUUID.
Definition RootItem_ParentUUID := atUUID rootItemParentUUID. (* btrfs.go:745 *)
Definition RootItem_ReceivedUUID := atUUID rootItemReceivedUUID.
Definition RootItem_CTransID := at64 rootItemCTransID. (* btrfs.go:749 *)
Definition RootItem_OTransID := at64 rootItemOTransID.
Definition RootItem_STransID := at64 rootItemSTransID. (* btrfs.go:755 *)
Definition RootItem_RTransID := at64 rootItemRTransID.
Definition RootItem_Ctime := atTime rootItemCtime. (* btrfs.go:759 *)
Definition RootItem_Otime := atTime rootItemOtime.
Definition RootItem_Stime := atTime rootItemStime. (* btrfs.go:761 *)
Definition RootItem_Rtime := atTime rootItemRtime.
(* btrfs.go:763-773 *)
Definition RootItem_Reserved (i : slice) : Res (list Z) :=
  a <- at64 rootItemReserved i ;; b <- at64 (rootItemReserved + 8) i ;;
  c <- at64 (rootItemReserved + 16) i ;; d <- at64 (rootItemReserved + 24) i ;;
  e <- at64 (rootItemReserved + 32) i ;; f <- at64 (rootItemReserved + 40) i ;;
  g <- at64 (rootItemReserved + 48) i ;; h <- at64 (rootItemReserved + 56) i ;;
  Ok [a; b; c; d; e; f; g; h].
(* btrfs.go:775 *)
Definition RootItem_IsGenerationV2 (i : slice) : Res bool :=
  a <- RootItem_Generation i ;; b <- RootItem_GenerationV2 i ;; Ok (a =? b).

(** ** RootRef, btrfs.go:778-798 *)
Definition rootRefDirID := 0. (* btrfs.go:782 *)
Definition rootRefSequence := rootRefDirID + 8.
Definition rootRefNameLen := rootRefSequence + 8. (* btrfs.go:784 *)
Definition rootRefName := rootRefNameLen + 2.
Definition RootRef_DirID := at64 rootRefDirID. (* btrfs.go:788 *)
Definition RootRef_Sequence := at64 rootRefSequence.
Definition RootRef_NameLen := at16 rootRefNameLen. (* btrfs.go:790 *)
Definition RootRef_Name := name_at rootRefNameLen rootRefName.

(** ** ExtentItem, btrfs.go:809-825 *)
Definition extentItemRefs := 0. (* btrfs.go:813 *)
Definition extentItemGeneration := extentItemRefs + 8.
Definition extentItemFlags := extentItemGeneration + 8. (* btrfs.go:815 *)
Definition extentItemEnd := extentItemFlags + 8.
Definition ExtentItem_Refs := at64 extentItemRefs. (* btrfs.go:819 *)
Definition ExtentItem_Generation := at64 extentItemGeneration.
Definition ExtentItem_Flags := at64 extentItemFlags. (* btrfs.go:821 *)
Definition ExtentItem_IsCompatV0 (i : slice) : bool := s_len i <? 8 + 8 + 8.

(** ** leaf.go: Header, leaf.go:12-49 *)
Definition headerCSum := 0. (* leaf.go:16 *)
Definition headerFSID := headerCSum + CSumSize.
Definition headerByteNr := headerFSID + UUIDSize. (* leaf.go:19 *)
Definition headerFlags := headerByteNr + 8.
Definition headerChunkTreeUUID := headerFlags + 8. (* leaf.go:22 *)
Definition headerGeneration := headerChunkTreeUUID + UUIDSize.
Definition headerOwner := headerGeneration + 8. (* leaf.go:24 *)
Definition headerNrItems := headerOwner + 8.
Definition headerLevel := headerNrItems + 4. (* leaf.go:26 *)
Definition HeaderLen := headerLevel + 1.
(* leaf.go:30-34: copy of h[0:32] into a 32 byte array *)
Definition Header_CSum (h : slice) : Res (list byte) :=
  s <- go_slice h headerCSum (headerCSum + CSumSize) ;; Ok (sbytes s).
Definition Header_FSID := atUUID headerFSID. (* leaf.go:37 *)
Definition Header_ByteNr := at64 headerByteNr.
Definition Header_Flags := at64 headerFlags. (* leaf.go:42 *)
Definition Header_ChunkTreeUUID := atUUID headerChunkTreeUUID.
Definition Header_Generation := at64 headerGeneration. (* leaf.go:44 *)
Definition Header_Owner := at64 headerOwner.
Definition Header_NrItems := at32 headerNrItems. (* leaf.go:46 *)
Definition Header_Level := at8 headerLevel.
Definition Header_IsLeaf (h : slice) : Res bool := l <- Header_Level h ;; Ok (l =? 0). (* leaf.go:49 *)

(** ** Item, leaf.go:51-63 *)
Definition itemKey := 0. (* leaf.go:54 *)
Definition itemOffset := itemKey + KeyLen.
Definition itemSize := itemOffset + 4. (* leaf.go:56 *)
Definition ItemLen := itemSize + 4.
Definition Item_Key := atKey itemKey. (* leaf.go:60 *)
Definition Item_Offset := at32 itemOffset.
Definition Item_Size := at32 itemSize. (* leaf.go:62 *)
(* leaf.go:63: i[ItemLen : ItemLen+i.Size()], the end computed in uint32 *)
Definition Item_Data (i : slice) : Res slice :=
  n <- Item_Size i ;; go_slice i ItemLen (u32 (ItemLen + n)).

(** ** Leaf, leaf.go:65-107 *)
(* leaf.go:70-78; cap(l), uint32(maxItems) *)
Definition Leaf_Len (l : slice) : Res Z :=
  let maxItems := scap l / ItemLen in
  n <- Header_NrItems l ;;
  Ok (if u32 maxItems <? n then u32 maxItems else n).
(* leaf.go:88-91 *)
Definition Leaf_Item (l : slice) (i : Z) : Res slice :=
  let o := HeaderLen + i * ItemLen in go_slice l o (o + ItemLen).
(* leaf.go:80-86 *)
Fixpoint Leaf_Items_from (l : slice) (n : nat) (i : Z) : Res (list slice) :=
  match n with
  | O => Ok []
  | S n => x <- Leaf_Item l i ;; r <- Leaf_Items_from l n (i + 1) ;; Ok (x :: r)
  end.
(* leaf.go:80-86 *)
Definition Leaf_Items (l : slice) : Res (list slice) :=
  n <- Leaf_Len l ;; Leaf_Items_from l (Z.to_nat n) 0.
(* leaf.go:93-95 *)
Definition Leaf_Key (l : slice) (i : Z) : Res Key := atKey (HeaderLen + i * ItemLen + itemKey) l.
(* leaf.go:97-107: all of o, leafLen, e are uint32 *)
Definition Leaf_Data (l : slice) (i : Z) : Res slice :=
  it <- Leaf_Item l i ;;
  off <- Item_Offset it ;;
  let o := u32 (HeaderLen + off) in
  let leafLen := u32 (s_len l) in
  sz <- Item_Size it ;;
  let e0 := u32 (o + sz) in
  let e := if leafLen <? e0 then leafLen else e0 in
  go_slice l o e.

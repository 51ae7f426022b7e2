(** pkg/btrfs/index/index_store.go: queries on an open index.
    Values handed out by bbolt have capacity = length ([sl]). *)
From Verif Require Export Go Layout KeyFmt Bolt.

(* index_store.go:276-287.  The for loop visits successive entries, so it is
   structural on the entries behind the cursor. *)
Fixpoint lowerBound_loop (gen : Z) (cur : list byte) (rest : bucket) : Key :=
  match rest with
  | [] => ik_Key cur
  | (next, _) :: rest' =>
      if bytes_eqb (firstn 25 next) (firstn 25 cur)
      then if gen <? ik_Generation next then ik_Key cur else lowerBound_loop gen next rest'
      else ik_Key cur
  end.
(* index_store.go:262-288 *)
Definition lowerBound (b : bucket) (owner : Z) (k : Key) (gen : Z) (prefix : nat) : Key :=
  let search := firstn prefix (newIndexKey owner k 0) in
  match snd (seek b search) with
  | [] => KL0
  | (cur, _) :: rest =>
      if bytes_eqb (firstn prefix cur) search then lowerBound_loop gen cur rest else KL0
  end.

(* index_store.go:290-304: found[:25] on a nil key panics *)
Definition find (b : bucket) (owner : Z) (k : Key) (generation : Z) : Res (option entry) :=
  let search := newIndexKey owner k generation in
  let c := seek b search in
  match cur_entry c with
  | None => Panic
  | Some (fk, fv) =>
      if bytes_leb (firstn 25 fk) (firstn 25 search) then Ok (Some (fk, fv))
      else match prev_entry c with
           | Some (pk, pv) =>
               if (0 <? zlen pk) && bytes_eqb (firstn 25 pk) (firstn 25 search) then Ok (Some (pk, pv)) else Ok None
           | None => Ok None
           end
  end.

(* index_store.go:306-319; [end = None] is the nil passed by Range.Next.
   bytes.Compare(nil, search) is -1, so a nil second Seek returns (nil, nil). *)
Definition findNext (b : bucket) (ik : list byte) (e : option (list byte)) : option entry :=
  let search := newIndexKey (ik_Owner ik) (ik_Key ik) max64 in
  match cur_entry (seek b search) with
  | None => None
  | Some (found, _) =>
      let search := newIndexKey (ik_Owner ik) (ik_Key found) (ik_Generation ik) in
      match cur_entry (seek b search) with
      | None => None
      | Some (found, v) =>
          if bytes_leb found search then Some (found, v)
          else match e with
               | Some e => if bytes_leb found e then Some (found, v) else None
               | None => None
               end
      end
  end.

(** ** Range, index_store.go:321-369 *)
(* index_store.go:324-329; the cursor has no state that matters: Next seeks again *)
Record Range := mkRange { r_key : option (list byte); r_end : list byte; r_value : list byte }.
(* index_store.go:334-336 *)
Definition HasNext (r : Range) : bool :=
  match r_key r with None => false | Some k => bytes_leb k (r_end r) end.
(** r.value.Data(), as in index_store.go:340, 361, 393; leaf.go: Item.Data *)
Definition valueData (v : list byte) : Res slice := Item_Data (sl v).
(** nil data, as in index_store.go:342, 363, 380 *)
Definition nil_data : slice := sl [].
(* index_store.go:338-343 *)
Definition Range_Next (b : bucket) (r : Range) : Res (Range * slice) :=
  match r_key r with
  | None => Panic (* ik.Owner() of a nil key *)
  | Some k =>
      match findNext b k None with
      | Some (k', v) => d <- valueData v ;; Ok (mkRange (Some k') (r_end r) v, d)
      | None => Ok (mkRange None (r_end r) [], nil_data)
      end
  end.
(* index_store.go:350-364; keyV2Offset = 17 *)
Definition mkRangeFrom (b : bucket) (gen owner : Z) (first last : Key) : Res (Range * slice) :=
  let e := newIndexKey owner last gen in
  let lowerFirst := lowerBound b owner first gen 17 in
  f <- find b owner lowerFirst gen ;;
  match f with
  | Some (k, v) => d <- valueData v ;; Ok (mkRange (Some k) e v, d)
  | None => Ok (mkRange None e [], nil_data)
  end.
(* index_store.go:366-369 *)
Definition RangeAll (b : bucket) (gen owner t id : Z) : Res (Range * slice) :=
  mkRangeFrom b gen owner (KF2 t id) (KL2 t id).
(* index_store.go:396-404 *)
Definition Subvolumes (b : bucket) (gen : Z) := 
  mkRangeFrom b gen RootTreeObjectID (KF2 RootItemKey FirstFreeObjectID) (KL2 RootItemKey LastFreeObjectID).
Definition DirItems (b : bucket) (gen owner id : Z) := RangeAll b gen owner DirItemKey id. (* index_store.go:406-408 *)
Definition XAttrItems (b : bucket) (gen owner id : Z) := RangeAll b gen owner XAttrItemKey id. (* index_store.go:410-412 *)
Definition FileExtentItems (b : bucket) (gen owner id : Z) := RangeAll b gen owner ExtentDataKey id. (* index_store.go:414-417 *)
Definition Chunks (b : bucket) (gen : Z) := RangeAll b gen ChunkTreeObjectID ChunkItemKey FirstFreeObjectID. (* index_store.go:419-423 *)
Definition DevItems (b : bucket) (gen : Z) := RangeAll b gen ChunkTreeObjectID DevItemKey DevItemsObjectID. (* index_store.go:425-429 *)

(** The idiom [for r, d := ix.X(); r.HasNext(); d = r.Next() { body }]
    (index_store.go:467-478, 520-525 and every caller of a Range, e.g. recover.go:97-99); the
    body returns the new loop state and whether to break. *)
Fixpoint range_loop {S} (fuel : nat) (b : bucket) (r : Range) (d : slice)
    (body : Range -> slice -> S -> Res (S * bool)) (s : S) : Res S :=
  match fuel with
  | O => Timeout
  | Datatypes.S fuel =>
      if HasNext r then
        ' (s', brk) <- body r d s ;;
        if brk then Ok s'
        else ' (r', d') <- Range_Next b r ;; range_loop fuel b r' d' body s'
      else Ok s
  end.
(* the init statement of that idiom (index_store.go:467, 520) and the loop *)
Definition range_for {S} (fuel : nat) (b : bucket) (init : Res (Range * slice))
    (body : Range -> slice -> S -> Res (S * bool)) (s : S) : Res S :=
  ' (r, d) <- init ;; range_loop fuel b r d body s.
(** everything a range yields, for stating theorems; models no code: (index key, data) *)
Definition collect_body (r : Range) (d : slice) (acc : list (list byte * list byte)) :
  Res (list (list byte * list byte) * bool) :=
  match r_key r with
  | Some k => Ok (acc ++ [(k, sbytes d)], false)
  | None => Panic
  end.
Definition range_collect (fuel : nat) (b : bucket) (init : Res (Range * slice)) :
  Res (list (list byte * list byte)) := range_for fuel b init collect_body [].

(** ** FullRange, index_store.go:371-394 *)
(* index_store.go:371-373; the cursor is the zipper of Bolt.v, key and value are the entry under it *)
Record FullRange := mkFull { f_cur : bucket * bucket; f_end : list byte }.
(* r.key, index_store.go:376, 392 *)
Definition f_key (r : FullRange) : option (list byte) := option_map fst (cur_entry (f_cur r)).
(* index_store.go:334-336 (inherited from Range) *)
Definition Full_HasNext (r : FullRange) : bool :=
  match f_key r with None => false | Some k => bytes_leb k (f_end r) end.
(* index_store.go:383-394; First on an empty bucket: nil value, Data() panics *)
Definition mkFullRange (b : bucket) (gen : Z) : Res (FullRange * slice) :=
  let e := newIndexKey max64 KL0 gen in
  match b with
  | [] => Panic
  | (_, v) :: _ => d <- valueData v ;; Ok (mkFull ([], b) e, d)
  end.
(* index_store.go:375-381 *)
Definition Full_Next (r : FullRange) : Res (FullRange * slice) :=
  let r' := mkFull (cur_next (f_cur r)) (f_end r) in
  match cur_entry (f_cur r') with
  | Some (k, v) => if bytes_eqb k (f_end r) then Ok (r', nil_data) else d <- valueData v ;; Ok (r', d)
  | None => Ok (r', nil_data)
  end.
(* the loop over a FullRange, dump_index.go:40-48 *)
Fixpoint full_loop {S} (fuel : nat) (r : FullRange) (d : slice)
    (body : FullRange -> slice -> S -> Res S) (s : S) : Res S :=
  match fuel with
  | O => Timeout
  | Datatypes.S fuel =>
      if Full_HasNext r then
        s' <- body r d s ;; ' (r', d') <- Full_Next r ;; full_loop fuel r' d' body s'
      else Ok s
  end.

(** ** Point lookups, index_store.go:431-459 *)
(* index_store.go:431-437 *)
Definition FindItem (b : bucket) (gen owner : Z) (k : Key) : Res (option (list byte)) :=
  f <- find b owner k gen ;; Ok (option_map snd f).
(* "if i := ...; i != nil { return i.Data() }; return nil", index_store.go:440-443, 447-450, 454-458 *)
Definition item_data_opt (i : option (list byte)) : Res (option slice) :=
  match i with Some v => d <- valueData v ;; Ok (Some d) | None => Ok None end.
(* index_store.go:439-444 *)
Definition FindInodeItem (b : bucket) (gen owner inode : Z) : Res (option slice) :=
  i <- FindItem b gen owner (KF2 InodeItemKey inode) ;; item_data_opt i.
(* index_store.go:446-451 *)
Definition FindFileExtentItem (b : bucket) (gen owner id : Z) : Res (option slice) :=
  i <- FindItem b gen owner (KF2 ExtentDataKey id) ;; item_data_opt i.
(* index_store.go:453-459 *)
Definition FindExtentItem (b : bucket) (gen diskByteNr diskNumBytes : Z) : Res (option slice) :=
  i <- FindItem b gen ExtentTreeObjectID (KF3 ExtentItemKey diskByteNr diskNumBytes) ;; item_data_opt i.

(** ** Index metadata record, index_store.go:31-36, 59-92 *)
Definition MetadataVersion : Z := 20190809. (* index_store.go:34 *)
Definition indexMetadataVersion : Z := 0. (* index_store.go:72 *)
Definition indexMetadataBlockSize : Z := indexMetadataVersion + 8. (* index_store.go:73 *)
Definition indexMetadataFSID : Z := indexMetadataBlockSize + 4. (* index_store.go:74 *)
Definition indexMetadataGeneration : Z := indexMetadataFSID + UUIDSize. (* index_store.go:75 *)
(* index_store.go:59-66 *)
Record Options := mkOptions { o_ReadOnly : bool; o_BlockSize : Z; o_FSID : list byte; o_Generation : Z; o_AllowOldVersion : bool }.
(* index_store.go:79-87 *)
Definition newIndexMetadata (o : Options) : list byte :=
  le_encode 8 MetadataVersion ++ le_encode 4 (u32 (o_BlockSize o)) ++ o_FSID o ++ le_encode 8 (o_Generation o).
Definition md_Version (m : list byte) : Res Z := at64 indexMetadataVersion (sl m). (* index_store.go:89 *)
Definition md_BlockSize (m : list byte) : Res Z := at32 indexMetadataBlockSize (sl m). (* index_store.go:90 *)
Definition md_FSID (m : list byte) : Res (list byte) := atUUID indexMetadataFSID (sl m). (* index_store.go:91 *)
Definition md_Generation (m : list byte) : Res Z := at64 indexMetadataGeneration (sl m). (* index_store.go:92 *)

(** ** sort.Search and Physical, index_store.go:461-496 *)
(* sort.Search (Go standard library): i, j := 0, n; for i < j { h := int(uint(i+j) >> 1); ... }.
   [f] may abort.  Fuel: n iterations are enough. *)
Fixpoint search_loop (fuel : nat) (i j : Z) (f : Z -> Res bool) : Res Z :=
  match fuel with
  | O => Timeout
  | S fuel =>
      if i <? j then
        let h := (i + j) / 2 in
        p <- f h ;; if p then search_loop fuel i h f else search_loop fuel (h + 1) j f
      else Ok i
  end.
(* sort.Search, called in index_store.go:483-485 *)
Definition sort_Search (n : Z) (f : Z -> Res bool) : Res Z := search_loop (S (Z.to_nat n)) 0 n f.

(* index_store.go:38-42 *)
Record stripeMapEntry := mkStripe { sm_logical : Z; sm_devID : Z; sm_offset : Z }.
(** m[i], index_store.go:484, 486, 492 *)
Definition sm_index (m : list stripeMapEntry) (i : Z) : Res stripeMapEntry :=
  if (0 <=? i) && (i <? zlen m)
  then match nth_error m (Z.to_nat i) with Some e => Ok e | None => Panic end else Panic.
(* index_store.go:468-477; the output of 477, a line per stripe, is in Stdout.v *)
Definition stripe_body (r : Range) (c : slice) (m : list stripeMapEntry) : Res (list stripeMapEntry * bool) :=
  n <- Chunk_NumStripes c ;;
  if n =? 0 then Ok (m, false)
  else
    s <- Chunk_Stripe c 0 ;;
    match r_key r with
    | None => Panic
    | Some k => d <- Stripe_DevID s ;; o <- Stripe_Offset s ;;
        Ok (m ++ [mkStripe (KOffset (ik_Key k)) d o], false)
    end.
(* index_store.go:465-479: the cache is filled on first use *)
Definition build_stripeMap (fuel : nat) (b : bucket) (gen : Z) : Res (list stripeMapEntry) :=
  range_for fuel b (Chunks b gen) stripe_body [].
(* index_store.go:481-495 *)
Definition Physical_in (m : list stripeMapEntry) (logical : Z) : Res (Z * Z) :=
  let n := zlen m in
  i <- sort_Search n (fun i => e <- sm_index m i ;; Ok (logical <=? sm_logical e)) ;;
  adj <- (if i =? n then Ok true
          else if 0 <? i then e <- sm_index m i ;; Ok (negb (sm_logical e =? logical)) else Ok false) ;;
  let i := if (adj : bool) then i - 1 else i in
  s <- sm_index m i ;;
  Ok (sm_devID s, u64 (u64 (sm_offset s + logical) - sm_logical s)).
(** the whole method, index_store.go:461-496: [cache] = ix.stripeMap (None = nil) *)
Definition Physical (fuel : nat) (b : bucket) (gen : Z) (cache : option (list stripeMapEntry)) (logical : Z) :
  Res (list stripeMapEntry * (Z * Z)) :=
  m <- (match cache with Some m => Ok m | None => build_stripeMap fuel b gen end) ;;
  p <- Physical_in m logical ;; Ok (m, p).

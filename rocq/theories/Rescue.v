(** internal/rescuefs: the file system the mount command serves.
    The FUSE library (go-fuse, nodefs) is not modelled except for reading from
    nodefs.NewDataFile; requests are calls of the methods below, one at a time
    (Conc.v has the interleavings).  A runtime panic ends the process. *)
From Verif Require Export Go Layout KeyFmt Bolt Store IoUtil Fs Recover Conc.

Inductive status := OK | ENOENT | ENOATTR | ENODATA | EIO | EINVAL.

(** ** files.go *)
(* files.go:18-24 *)
Record extentMapEntry := mkEntry { x_fileOffset : Z; x_length : Z; x_physOffset : Z; x_diskByteNr : Z; x_devID : Z }.
(** what New is given as device (rescuefs.go:23,29): an interface that is nil, one that
    holds a nil *os.File (then dev == nil is false and ReadAt returns os.ErrInvalid), or a reader *)
Inductive device_arg := NilInterface | NilFile | Reader (r : readerAt).
(* files.go:140,146: fs.dev == nil, and its ReadAt *)
Definition device_nil (d : device_arg) : bool := match d with NilInterface => true | _ => false end.
Definition device_read (d : device_arg) : readerAt := match d with Reader r => r | _ => fun _ _ => ([], Some EOther) end.
(* files.go:46-59: one extent item; Physical is asked only if the number is positive *)
Definition map_entry (q : queries) (ke : list byte * slice) : Res extentMapEntry :=
  let '(k, e) := ke in
  nr <- FileExtentItem_DiskByteNr e ;;
  ' (dev, phys) <- (if 0 <? nr then q_physical q nr else Ok (0, 0)) ;;
  n <- FileExtentItem_NumBytes e ;;
  o <- FileExtentItem_Offset e ;;
  Ok (mkEntry (KOffset (ik_Key k)) n (u64 (phys + o)) nr dev).
Fixpoint map_entries (q : queries) (l : list (list byte * slice)) (fin : Res unit) : Res (list extentMapEntry) :=
  match l with
  | [] => _ <- fin ;; Ok []
  | ke :: l => x <- map_entry q ke ;; xs <- map_entries q l fin ;; Ok (x :: xs)
  end.
(* files.go:34-61; None = nil *)
Definition newExtentFile (q : queries) (owner id : Z) : Res (option (list extentMapEntry)) :=
  let s := q_extents q owner id in
  match st_items s with
  | [] => _ <- st_end s ;; Ok None
  | l => m <- map_entries q l (st_end s) ;; Ok (Some m)
  end.

(** overwrite [data] in [buf] at [off]: what the ReadAt into a slice of buf does, files.go:95-159 *)
Definition put_at (buf : list byte) (off : Z) (data : list byte) : list byte :=
  firstn (Z.to_nat off) buf ++ data ++ skipn (Z.to_nat off + length data) buf.
(* files.go:103-153.  buf has no spare capacity.  None = EIO; else buf and bytesRead *)
Fixpoint read_loop (dev : device_arg) (m : list extentMapEntry) (buf : list byte) (off bytesRead : Z) : Res (option (list byte * Z)) :=
  match m with
  | [] => Ok (Some (buf, bytesRead))
  | x :: m =>
      let bufLen := zlen buf in
      if i64 (u64 (x_fileOffset x + x_length x)) <=? off then read_loop dev m buf off bytesRead
      else if i64 (off + (bufLen - bytesRead)) <=? i64 (x_fileOffset x) then Ok (Some (buf, bytesRead))
      else
        let extentStart := i64 (x_fileOffset x) in
        let extentEnd := i64 (u64 (x_fileOffset x + x_length x)) in
        let readStart := if off <? extentStart then extentStart else off in
        let readEnd := i64 (off + (bufLen - bytesRead)) in
        let readEnd := if extentEnd <? readEnd then extentEnd else readEnd in
        if readEnd <=? readStart then read_loop dev m buf off bytesRead
        else
          let chunkSize := i64 (readEnd - readStart) in
          let destOffset := i64 (readStart - off) in
          if (x_diskByteNr x =? 0) || device_nil dev then
            if (0 <=? destOffset) && (destOffset + chunkSize <=? bufLen) then
              read_loop dev m (put_at buf destOffset (zeros chunkSize)) off (bytesRead + chunkSize)
            else Panic
          else
            let phys := i64 (i64 (x_physOffset x) + i64 (readStart - extentStart)) in
            s <- go_slice (sl buf) destOffset (i64 (destOffset + chunkSize)) ;;
            let '(data, err) := device_read dev (s_len s) phys in
            match err with
            | Some EOther => Ok None
            | _ => read_loop dev m (put_at buf destOffset data) off (bytesRead + chunkSize)
            end
  end.
(* files.go:95-159: the data of the ReadResult and the status *)
Definition extentFile_Read (dev : device_arg) (m : list extentMapEntry) (buf : list byte) (off : Z) : Res (list byte * status) :=
  if off <? 0 then Ok ([], EINVAL)
  else
    r <- read_loop dev m buf off 0 ;;
    match r with
    | None => Ok ([], EIO)
    | Some (buf, bytesRead) =>
        if bytesRead <? zlen buf then s <- go_to (sl buf) bytesRead ;; Ok (sbytes s, OK) else Ok (buf, OK)
    end.

(** ** attributes *)
(** fuse.Attr, the fields that are set *)
Record attr := mkAttr { a_ino : Z; a_size : Z; a_atime : Z; a_mtime : Z; a_ctime : Z; a_atimensec : Z; a_mtimensec : Z; a_ctimensec : Z;
  a_mode : Z; a_nlink : Z; a_uid : Z; a_gid : Z; a_rdev : Z }.
(* nodefs.go:114-127, files.go:70-80 *)
Definition inode_attr (ino : Z) (ii : slice) : Res attr :=
  size <- InodeItem_Size ii ;;
  a <- InodeItem_Atime ii ;;
  m <- InodeItem_Mtime ii ;;
  c <- InodeItem_Ctime ii ;;
  mode <- InodeItem_Mode ii ;;
  nlink <- InodeItem_Nlink ii ;;
  uid <- InodeItem_UID ii ;;
  gid <- InodeItem_GID ii ;;
  rdev <- InodeItem_Rdev ii ;;
  Ok (mkAttr ino size (u64 (fst a)) (u64 (fst m)) (u64 (fst c)) (u32 (snd a)) (u32 (snd m)) (u32 (snd c)) mode nlink uid gid (u32 rdev)).
Definition S_IFREG : Z := 0x8000. (* the fuse package constant, nodefs.go:167, files.go:85 *)
Definition S_IFDIR : Z := 0x4000.
(* files.go:67-93.  [out] is what the caller passed; its other fields stay *)
Definition extentFile_GetAttr (q : queries) (owner inode : Z) (m : list extentMapEntry) (out : attr) : Res (attr * status) :=
  i <- q_inode q owner inode ;;
  match i with
  | Some ii => a <- inode_attr (a_ino out) ii ;; Ok (a, OK)
  | None =>
      let size := match m with [] => 0 | x :: _ => let y := last m x in u64 (x_fileOffset y + x_length y) end in
      Ok (mkAttr (a_ino out) size (a_atime out) (a_mtime out) (a_ctime out) (a_atimensec out) (a_mtimensec out) (a_ctimensec out)
            (Z.lor S_IFREG 0x1a4) (a_nlink out) (a_uid out) (a_gid out) (a_rdev out), OK)
  end.

(** ** rescueNode, nodefs.go:85-104: owner and inode are fixed, attr and dirItems are caches *)
Record node_state := mkNode { n_owner : Z; n_inode : Z; n_attr : option attr; n_dir : dirmap }.
(* nodefs.go:95-104 *)
Definition newRescueNode (owner inode : Z) : node_state := mkNode owner inode None [].
(* nodefs.go:34-39: OnMount adds this node as "rescue" to the root of the mount (MountTop.v) *)
Definition mount_node : node_state := newRescueNode FSTreeObjectID FirstFreeObjectID.
(* nodefs.go:106-131: filling the attribute cache *)
Definition set_attr (n : node_state) (a : attr) : node_state := mkNode (n_owner n) (n_inode n) (Some a) (n_dir n).
Definition set_dir (n : node_state) (m : dirmap) : node_state := mkNode (n_owner n) (n_inode n) (n_attr n) m.
(* nodefs.go:106-131: new state, attributes if any, status *)
Definition GetAttr (q : queries) (n : node_state) : Res (node_state * option attr * status) :=
  match n_attr n with
  | Some a => Ok (n, Some a, OK)
  | None =>
      i <- q_inode q (n_owner n) (n_inode n) ;;
      match i with
      | None => Ok (n, None, ENOATTR)
      | Some ii => a <- inode_attr (n_inode n) ii ;; Ok (set_attr n a, Some a, OK)
      end
  end.
(* nodefs.go:137-139 *)
Fixpoint fill_dir (l : list (list byte * slice)) (fin : Res unit) (m : dirmap) : Res dirmap :=
  match l with
  | [] => _ <- fin ;; Ok m
  | (_, d) :: l => nm <- DirItem_Name d ;; fill_dir l fin (mset m nm d)
  end.
(* nodefs.go:133-140 *)
Definition ensureDirItems (q : queries) (n : node_state) : Res node_state :=
  if 0 <? zlen (n_dir n) then Ok n
  else let s := q_dirItems q (n_owner n) (n_inode n) in m <- fill_dir (st_items s) (st_end s) (n_dir n) ;; Ok (set_dir n m).
(** the node a dir item leads to, nodefs.go:149-156 *)
Definition child_of (owner : Z) (d : slice) : Res (Z * Z) :=
  sub <- DirItem_IsSubvolume d ;;
  loc <- DirItem_Location d ;;
  Ok (if sub : bool then (ObjectID loc, FirstFreeObjectID) else (owner, ObjectID loc)).
(* nodefs.go:142-160: new state; the child (its node, is it a directory) if the name is known; attributes; status *)
Definition Lookup (q : queries) (n : node_state) (name : list byte) : Res (node_state * option (node_state * bool) * option attr * status) :=
  n <- ensureDirItems q n ;;
  match mget (n_dir n) name with
  | None => Ok (n, None, None, ENOENT)
  | Some d =>
      ' (o, i) <- child_of (n_owner n) d ;;
      isd <- DirItem_IsDir d ;;
      ' (c, a, st) <- GetAttr q (newRescueNode o i) ;;
      Ok (n, Some (c, isd), a, st)
  end.
(* nodefs.go:165-172, over the map in the given order *)
Fixpoint dir_entries (m : dirmap) : Res (list (list byte * Z)) :=
  match m with
  | [] => Ok []
  | (_, d) :: m =>
      nm <- DirItem_Name d ;; isd <- DirItem_IsDir d ;; r <- dir_entries m ;;
      Ok ((nm, if isd : bool then S_IFDIR else S_IFREG) :: r)
  end.
(* nodefs.go:162-174; [ord] is the order in which range visits the map *)
Definition OpenDir (q : queries) (ord : dirmap -> dirmap) (n : node_state) : Res (node_state * list (list byte * Z)) :=
  n <- ensureDirItems q n ;;
  es <- dir_entries (ord (n_dir n)) ;;
  Ok (n, es).
(** a file handle: nodefs.NewDataFile or an extentFile *)
Inductive file := DataFile (data : list byte) | ExtentFile (m : list extentMapEntry).
(* nodefs.go:176-192 *)
Definition Open (q : queries) (n : node_state) : Res (option file * status) :=
  let s := q_extents q (n_owner n) (n_inode n) in
  match st_items s with
  | [] => _ <- st_end s ;; Ok (None, ENOENT)
  | (_, e) :: _ =>
      inl <- FileExtentItem_IsInline e ;;
      if inl : bool then d <- FileExtentItem_Data e ;; Ok (Some (DataFile d), OK)
      else
        f <- newExtentFile q (n_owner n) (n_inode n) ;;
        match f with Some m => Ok (Some (ExtentFile m), OK) | None => Ok (None, ENOENT) end
  end.
(** reading from a handle; go-fuse's dataFile.Read is data[off:end] with
    end = min(off + len(buf), len(data)) *)
Definition file_Read (dev : device_arg) (f : file) (buf : list byte) (off : Z) : Res (list byte * status) :=
  match f with
  | DataFile data =>
      let e := i64 (off + zlen buf) in
      let e := if zlen data <? e then zlen data else e in
      s <- go_slice (sl data) off e ;; Ok (sbytes s, OK)
  | ExtentFile m => extentFile_Read dev m buf off
  end.
(* nodefs.go:194-203 *)
Fixpoint find_xattr (l : list (list byte * slice)) (fin : Res unit) (name : list byte) : Res (option (list byte) * status) :=
  match l with
  | [] => _ <- fin ;; Ok (None, ENOATTR)
  | (_, x) :: l =>
      nm <- DirItem_Name x ;;
      if bytes_eqb nm name then d <- DirItem_Data x ;; Ok (Some d, OK) else find_xattr l fin name
  end.
(** [xs]: what ix.XAttrItems yields for the node *)
Definition GetXAttr (xs : stream) (name : list byte) : Res (option (list byte) * status) := find_xattr (st_items xs) (st_end xs) name.
(* nodefs.go:205-211 *)
Fixpoint xattr_names (l : list (list byte * slice)) (fin : Res unit) : Res (list (list byte)) :=
  match l with
  | [] => _ <- fin ;; Ok []
  | (_, x) :: l => nm <- DirItem_Name x ;; r <- xattr_names l fin ;; Ok (nm :: r)
  end.
Definition ListXAttr (xs : stream) : Res (list (list byte)) := xattr_names (st_items xs) (st_end xs).
Definition ix_xattrs (fuel : nat) (b : bucket) (gen owner inode : Z) : stream := stream_of fuel b (XAttrItems b gen owner inode).
(* nodefs.go:213-220 *)
Definition Readlink (q : queries) (n : node_state) : Res (option (list byte) * status) :=
  e <- q_extent0 q (n_owner n) (n_inode n) ;;
  match e with
  | None => Ok (None, ENODATA)
  | Some e => inl <- FileExtentItem_IsInline e ;; if inl : bool then t <- FileExtentItem_Data e ;; Ok (Some t, OK) else Ok (None, ENODATA)
  end.

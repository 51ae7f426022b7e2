(** cmd/recover.go: restoring files from the device with the metadata index. *)
From Verif Require Export Go Layout KeyFmt Bolt Store RangeItems IoUtil ToString Fs.

(** ** What the command asks the index
    A loop [for r, v := ix.X(); r.HasNext(); v = r.Next()] runs over [st_items] and
    then stops normally or because Next (or the first query) panicked. *)
Record stream := mkStream { st_items : list (list byte * slice); st_end : Res unit }.
Record queries := mkQueries {
  q_dirItems : Z -> Z -> stream;        (* index_store.go:406-408 *)
  q_inode : Z -> Z -> Res (option slice);  (* 439-444 *)
  q_extents : Z -> Z -> stream;          (* 414-417 *)
  q_extent0 : Z -> Z -> Res (option slice); (* 446-451 *)
  q_physical : Z -> Res (Z * Z);        (* 464-496 *)
  q_subvolumes : stream }.              (* 400-404 *)
Fixpoint stream_loop (fuel : nat) (b : bucket) (r : Range) (d : slice) : stream :=
  match fuel with
  | O => mkStream [] Timeout
  | S fuel =>
      if HasNext r then
        match r_key r with
        | None => mkStream [] Panic
        | Some k =>
            match Range_Next b r with
            | Ok (r', d') => let s := stream_loop fuel b r' d' in mkStream ((k, d) :: st_items s) (st_end s)
            | Panic => mkStream [(k, d)] Panic
            | Timeout => mkStream [(k, d)] Timeout
            end
        end
      else mkStream [] (Ok tt)
  end.
Definition stream_of (fuel : nat) (b : bucket) (init : Res (Range * slice)) : stream :=
  match init with
  | Ok (r, d) => stream_loop fuel b r d
  | Panic => mkStream [] Panic
  | Timeout => mkStream [] Timeout
  end.
(** an open index; the stripe map cache of Physical only saves work *)
Definition ix_queries (fuel : nat) (b : bucket) (gen : Z) : queries :=
  mkQueries (fun o d => stream_of fuel b (DirItems b gen o d)) (FindInodeItem b gen)
    (fun o i => stream_of fuel b (FileExtentItems b gen o i)) (FindFileExtentItem b gen)
    (fun l => ' (_, p) <- Physical fuel b gen None l ;; Ok p) (stream_of fuel b (Subvolumes b gen)).

(** ** recoverFile *)
(** make([]byte, n) (recover.go:181, 246): more than 2^48 bytes panic (amd64); less is assumed to be available *)
Definition make_bytes (n : Z) : Res (list byte) := if (0 <=? n) && (n <=? 2^48) then Ok (zeros n) else Panic.
(* devFile.ReadAt, recover.go:199, 247, with a record of the call *)
Definition devRead (dev : readerAt) (n off : Z) : M (list byte * option ioerr) := fun w =>
  let '(d, e) := dev n off in
  (mkWorld (w_fs w) (w_ops w) (EvRead off n (zlen d) e :: w_log w), Ret (d, e)).
(* recover.go:189 *)
Definition chunkSize : Z := 1024 * 1024.
(** how a loop goes on: the function returned (is the error nil?) or not *)
Inductive flow := Go_on | Returned (ok : bool).
(* recover.go:192-212.  Fuel: one round copies at least one byte or ends. *)
Fixpoint copy_loop (fuel : nat) (E : env) (dev : readerAt) (h : cpath) (path : list byte) (numBytes srcOffset fileOffset copied : Z) : M flow :=
  match fuel with
  | O => fun w => (w, OTimeout)
  | S fuel =>
      if copied <? numBytes then
        let toCopy := u64 (numBytes - copied) in
        let toCopy := if chunkSize <? toCopy then chunkSize else toCopy in
        ' (data, err) <~ devRead dev toCopy (i64 (u64 (srcOffset + copied))) ;;
        w <~ (if 0 <? zlen data then
                r <~ WriteAt E h path data (i64 (u64 (fileOffset + copied))) ;; ret (is_some r)
              else ret true) ;;
        if negb w then ret (Returned false)
        else
          let copied := u64 (copied + zlen data) in
          match err with
          | Some EOF => if copied <? numBytes then ret (Returned false) else ret Go_on
          | Some EOther => ret Go_on
          | None => copy_loop fuel E dev h path numBytes srcOffset fileOffset copied
          end
      else ret Go_on
  end.
(* recover.go:167-178 *)
Definition inline_extent (E : env) (h : cpath) (path : list byte) (ii : option Z) (fileOffset : Z) (e : slice) : M flow :=
  data <~ lift (FileExtentItem_Data e) ;;
  let limit := zlen data in
  let limit :=
    match ii with
    | Some fileSize => if i64 fileSize <? i64 (i64 fileOffset + limit) then i64 (u64 (fileSize - fileOffset)) else limit
    | None => limit
    end in
  if 0 <? limit then
    d <~ lift (go_to (sl data) limit) ;;
    r <~ WriteAt E h path (sbytes d) (i64 fileOffset) ;;
    ret (if is_some r then Go_on else Returned false)
  else ret Go_on.
(* recover.go:179-213 *)
Definition disk_extent (cfuel : nat) (E : env) (dev : readerAt) (q : queries) (h : cpath) (path : list byte) (fileOffset : Z) (e : slice) : M flow :=
  numBytes <~ lift (FileExtentItem_NumBytes e) ;;
  nr <~ lift (FileExtentItem_DiskByteNr e) ;;
  if nr =? 0 then
    z <~ lift (make_bytes numBytes) ;;
    r <~ WriteAt E h path z (i64 fileOffset) ;;
    ret (if is_some r then Go_on else Returned false)
  else
    ' (_, phys) <~ lift (q_physical q nr) ;;
    o <~ lift (FileExtentItem_Offset e) ;;
    copy_loop cfuel E dev h path numBytes (u64 (phys + o)) fileOffset 0.
(* recover.go:164-215; the items and how the iteration ends *)
Fixpoint extents_loop (cfuel : nat) (E : env) (dev : readerAt) (q : queries) (h : cpath) (path : list byte) (ii : option Z)
    (l : list (list byte * slice)) (fin : Res unit) : M flow :=
  match l with
  | [] => _ <~ lift fin ;; ret Go_on
  | (k, e) :: l =>
      let fileOffset := KOffset (ik_Key k) in
      inl <~ lift (FileExtentItem_IsInline e) ;;
      f <~ (if inl : bool then inline_extent E h path ii fileOffset e
            else disk_extent cfuel E dev q h path fileOffset e) ;;
      match f with
      | Returned ok => ret (Returned ok)
      | Go_on => extents_loop cfuel E dev q h path ii l fin
      end
  end.
(* recover.go:136-223; true = nil error *)
Definition recoverFile (cfuel : nat) (E : env) (dev : readerAt) (q : queries) (clobber : bool) (owner inode : Z) (path : list byte) : M bool :=
  k <~ Stat E path ;;
  if is_some k && negb clobber then ret true
  else
    i <~ lift (q_inode q owner inode) ;;
    ii <~ lift (match i with Some d => s <- InodeItem_Size d ;; Ok (Some s) | None => Ok None end) ;;
    h <~ OpenFile E path ;;
    match h with
    | None => ret false
    | Some h =>
        let xs := q_extents q owner inode in
        match st_items xs with
        | [] =>
            _ <~ lift (st_end xs) ;;
            _ <~ (match ii with Some size => FTruncate E h path (i64 size) | None => ret None end) ;;
            ret true
        | l =>
            f <~ extents_loop cfuel E dev q h path ii l (st_end xs) ;;
            match f with
            | Returned ok => ret ok
            | Go_on =>
                match ii with
                | Some size => r <~ FTruncate E h path (i64 size) ;; ret (is_some r)
                | None => ret true
                end
            end
        end
    end.

(** ** recoverSymlink, recover.go:225-259 (devFile is never nil here) *)
(* recover.go:239-255; None = an error is returned *)
Definition link_target (dev : readerAt) (q : queries) (e : slice) : M (option (list byte)) :=
  inl <~ lift (FileExtentItem_IsInline e) ;;
  if inl : bool then t <~ lift (FileExtentItem_Data e) ;; ret (Some t)
  else
    nr <~ lift (FileExtentItem_DiskByteNr e) ;;
    if 0 <? nr then
      ' (_, phys) <~ lift (q_physical q nr) ;;
      o <~ lift (FileExtentItem_Offset e) ;;
      n <~ lift (FileExtentItem_NumBytes e) ;;
      buf <~ lift (make_bytes n) ;;
      ' (d, err) <~ devRead dev n (i64 (u64 (phys + o))) ;;
      match err with
      | None => ret (Some (d ++ skipn (length d) buf))
      | Some _ => ret None
      end
    else ret None.
(* recover.go:225-259 *)
Definition recoverSymlink (E : env) (dev : readerAt) (q : queries) (clobber : bool) (owner inode : Z) (path : list byte) : M bool :=
  k <~ Lstat E path ;;
  if is_some k && negb clobber then ret true
  else
    _ <~ (if is_some k then Remove E path else ret None) ;;
    e <~ lift (q_extent0 q owner inode) ;;
    match e with
    | None => ret false
    | Some e =>
        t <~ link_target dev q e ;;
        match t with
        | None => ret false
        | Some t => r <~ Symlink E t path ;; ret (is_some r)
        end
    end.

(** ** recoverDir, recover.go:87-134 *)
(* visited[key], recover.go:76, 89 *)
Definition key_in (k : Z * Z) (v : list (Z * Z)) : bool := existsb (fun x => (fst x =? fst k) && (snd x =? snd k)) v.
Definition backslash : byte := x5c.
(* strings.Contains(name, "x"), recover.go:105 *)
Definition has_byte (c : byte) (s : list byte) : bool := existsb (beqb c) s.
(* recover.go:105-107 *)
Definition skip_name (n : list byte) : bool := is_dot n || is_dotdot n || has_byte slash n || has_byte backslash n.
(** what the loop does with one item (recover.go:103-132) *)
Inductive action := ASkip | ADir (owner dir : Z) (path : list byte) | AFile (inode : Z) (path : list byte) | ALink (inode : Z) (path : list byte).
Definition classify (owner : Z) (dest : list byte) (di : slice) : Res action :=
  name <- DirItem_Name di ;;
  if skip_name name then Ok ASkip
  else
    let path := Join dest name in
    isd <- DirItem_IsDir di ;;
    sub <- (if (isd : bool) then Ok true else DirItem_IsSubvolume di) ;;
    if (sub : bool) then
      loc <- DirItem_Location di ;;
      isv <- DirItem_IsSubvolume di ;;
      Ok (if (isv : bool) then ADir (ObjectID loc) FirstFreeObjectID path else ADir owner (ObjectID loc) path)
    else
      t <- DirItem_Type di ;;
      if t =? FtRegFile then loc <- DirItem_Location di ;; Ok (AFile (ObjectID loc) path)
      else if t =? FtSymlink then loc <- DirItem_Location di ;; Ok (ALink (ObjectID loc) path)
      else Ok ASkip.
Section Items.
  (** the recursive call: owner, dir, path, visited *)
  Variable rec : Z -> Z -> list byte -> list (Z * Z) -> M (list (Z * Z) * bool).
  (* recover.go:103-132 *)
  Fixpoint items_loop (cfuel : nat) (E : env) (dev : readerAt) (q : queries) (clobber : bool) (owner : Z) (dest : list byte)
      (l : list (list byte * slice)) (v : list (Z * Z)) : M (list (Z * Z)) :=
    match l with
    | [] => ret v
    | (_, di) :: l =>
        a <~ lift (classify owner dest di) ;;
        v <~ match a with
             | ASkip => ret v
             | ADir o d p => ' (v, ok) <~ rec o d p v ;; _ <~ (if ok : bool then ret tt else emit (EvWarn WDir p)) ;; ret v
             | AFile i p => ok <~ recoverFile cfuel E dev q clobber owner i p ;; _ <~ (if ok : bool then ret tt else emit (EvWarn WFile p)) ;; ret v
             | ALink i p => ok <~ recoverSymlink E dev q clobber owner i p ;; _ <~ (if ok : bool then ret tt else emit (EvWarn WLink p)) ;; ret v
             end ;;
        items_loop cfuel E dev q clobber owner dest l v
    end.
End Items.
(** recover.go:87-134; fuel: depth of the recursion *)
Fixpoint recoverDir (fuel cfuel : nat) (E : env) (dev : readerAt) (q : queries) (clobber : bool) (owner dir : Z) (dest : list byte) (v : list (Z * Z)) :
  M (list (Z * Z) * bool) :=
  match fuel with
  | O => fun w => (w, OTimeout)
  | S fuel =>
      if key_in (owner, dir) v then ret (v, true)
      else
        let v := (owner, dir) :: v in
        ok <~ MkdirAll E dest ;;
        if negb ok then ret (v, false)
        else
          _ <~ emit (EvList owner dir) ;;
          let xs := q_dirItems q owner dir in
          _ <~ lift (st_end xs) ;;
          v <~ items_loop (recoverDir fuel cfuel E dev q clobber) cfuel E dev q clobber owner dest (st_items xs) v ;;
          ret (v, true)
  end.

(** ** doRecoverFiles, recover.go:48-85, once index and image are open
    (49-55: failure to open them ends the command before anything is written) *)
(** "subvol_" *)
Definition subvol_prefix : list byte := [x73; x75; x62; x76; x6f; x6c; x5f].
(* recover.go:77-78 *)
Definition subvol_dest (dest : list byte) (o : Z) : list byte := Join dest (subvol_prefix ++ dec o).
(* recover.go:73-84 *)
Fixpoint subvols_loop (fuel cfuel : nat) (E : env) (dev : readerAt) (q : queries) (clobber : bool) (dest : list byte)
    (l : list (list byte * slice)) (fin : Res unit) (v : list (Z * Z)) : M (list (Z * Z)) :=
  match l with
  | [] => _ <~ lift fin ;; ret v
  | (k, _) :: l =>
      let o := ObjectID (ik_Key k) in
      v <~ (if key_in (o, FirstFreeObjectID) v then ret v
            else
              ' (v, ok) <~ recoverDir fuel cfuel E dev q clobber o FirstFreeObjectID (subvol_dest dest o) v ;;
              _ <~ (if ok : bool then ret tt else emit (EvWarn WDir (subvol_dest dest o))) ;; ret v) ;;
      subvols_loop fuel cfuel E dev q clobber dest l fin v
  end.
(** result: did the command get past creating the destination?  With the keys visited *)
Definition doRecoverFiles (fuel cfuel : nat) (E : env) (dev : readerAt) (q : queries) (clobber : bool) (dest : list byte) : M (bool * list (Z * Z)) :=
  ok <~ MkdirAll E dest ;;
  if negb ok then _ <~ emit (EvWarn WDir dest) ;; ret (false, [])
  else
    ' (v, ok) <~ recoverDir fuel cfuel E dev q clobber FSTreeObjectID FirstFreeObjectID dest [] ;;
    _ <~ (if ok : bool then ret tt else emit (EvWarn WDir dest)) ;;
    v <~ subvols_loop fuel cfuel E dev q clobber dest (st_items (q_subvolumes q)) (st_end (q_subvolumes q)) v ;;
    ret (true, v).

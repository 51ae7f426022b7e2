(** internal/rescuefs, the top of the mount point: the root node and the node of the metadata file,
    nodefs.go:26-83.  What go-fuse 2.1.0 does around these methods is in the definitions marked
    "go-fuse"; the kernel is in [from_kernel]. *)
From Verif Require Export Go Layout KeyFmt Store Fs Recover Rescue.

(** the answers of Rescue.v and those go-fuse gives to requests that change something *)
Inductive tstatus := St (s : status) | EPERM | ENOSYS | EBADF | EACCES.

(** what syscall.Stat fills in; all zero if it fails (nodefs.go:68-69: the error is dropped) *)
Record stat := mkStat { s_ino : Z; s_size : Z; s_atime : Z * Z; s_mtime : Z * Z; s_ctime : Z * Z; s_mode : Z; s_nlink : Z; s_uid : Z; s_gid : Z; s_rdev : Z }.
Definition no_stat : stat := mkStat 0 0 (0, 0) (0, 0) (0, 0) 0 0 0 0 0.
(* nodefs.go:26-32; [now] is time.Now() in seconds and nanoseconds *)
Definition newNode (now : Z * Z) : attr :=
  mkAttr 0 0 (fst now) (fst now) (fst now) (snd now) (snd now) (snd now) (Z.lor 0x16d S_IFDIR) 0 0 0 0.
(* nodefs.go:65-74; FromStat (go-fuse) sets every field, so nothing of newNode is left *)
Definition newMetadataNode (s : option stat) : attr :=
  let s := match s with Some s => s | None => no_stat end in
  mkAttr (s_ino s) (s_size s) (fst (s_atime s)) (fst (s_mtime s)) (fst (s_ctime s)) (snd (s_atime s)) (snd (s_mtime s)) (snd (s_ctime s))
    (Z.lor (Z.land (s_mode s) 0x16d) S_IFREG) (s_nlink s) (s_uid s) (s_gid s) (s_rdev s).

(** ** the root *)
(* nodefs.go:36,38 *)
Definition n_rescue : list byte := [x72; x65; x73; x63; x75; x65].
Definition n_metadata : list byte := [x6d; x65; x74; x61; x64; x61; x74; x61].
(** the children OnMount adds (nodefs.go:34-39): the node of the file system in its present state, and
    the attributes of the metadata node *)
Record top := mkTop { t_root : attr; t_rescue : node_state; t_meta : attr }.
Definition mounted_top (now : Z * Z) (s : option stat) : top := mkTop (newNode now) mount_node (newMetadataNode s).
(** asking a child for its attributes: rescueNode.GetAttr (Rescue.v) and basicNode.GetAttr (nodefs.go:47-51) *)
Definition rescue_attr (q : queries) (t : top) : Res (top * option attr * tstatus) :=
  ' (n, a, s) <- GetAttr q (t_rescue t) ;; Ok (mkTop (t_root t) n (t_meta t), a, St s).
(** go-fuse: a child that is known already is asked for its attributes; else defaultNode.Lookup, ENOENT *)
Definition root_Lookup (q : queries) (t : top) (name : list byte) : Res (top * option attr * tstatus) :=
  if bytes_eqb name n_rescue then rescue_attr q t
  else if bytes_eqb name n_metadata then Ok (t, Some (t_meta t), St OK)
  else Ok (t, None, St ENOENT).
(** go-fuse, defaultNode.OpenDir: the children whose GetAttr answers OK; [flip]: the order of the map of children *)
Definition root_OpenDir (q : queries) (flip : bool) (t : top) : Res (top * list (list byte * Z)) :=
  ' (t, a, s) <- rescue_attr q t ;;
  let r := match a, s with Some a, St OK => [(n_rescue, a_mode a)] | _, _ => [] end in
  let m := [(n_metadata, a_mode (t_meta t))] in
  Ok (t, if flip : bool then m ++ r else r ++ m).

(** ** the metadata node *)
(** the flags of open(2): access mode, O_CREAT, O_EXCL, O_TRUNC *)
Definition access (flags : Z) : Z := Z.land flags 3.
Definition O_CREAT : Z := 0x40. Definition O_EXCL : Z := 0x80. Definition O_TRUNC : Z := 0x200.
Definition has (flags f : Z) : bool := negb (Z.land flags f =? 0).
(** the metadata file: its bytes (None: there is no such file), the handles given out (the access
    mode of each), and whether the process may open it with given flags *)
Record mfile := mkMfile { m_bytes : option (list byte); m_handles : list Z }.
(* nodefs.go:76-83: os.OpenFile, wrapped by go-fuse in a loopback file and in a read-only file.  New state, handle number *)
Definition metadata_Open (may : Z -> bool) (m : mfile) (flags : Z) : mfile * option nat * tstatus :=
  match m_bytes m with
  | None => if has flags O_CREAT then if may flags then (mkMfile (Some []) (m_handles m ++ [access flags]), Some (length (m_handles m)), St OK) else (m, None, EACCES)
            else (m, None, St ENOENT)
  | Some b => if may flags then (mkMfile (Some (if has flags O_TRUNC then [] else b)) (m_handles m ++ [access flags]), Some (length (m_handles m)), St OK)
              else (m, None, EACCES)
  end.
(** go-fuse: readOnlyFile passes Read on to loopbackFile, which is pread; the file is there as long as a handle is *)
Definition metadata_Read (m : mfile) (h : nat) (off n : Z) : list byte * tstatus :=
  match nth_error (m_handles m) h, m_bytes m with
  | Some a, Some b => if a =? 1 then ([], EBADF) else if off <? 0 then ([], St EINVAL) else (firstn (Z.to_nat n) (skipn (Z.to_nat off) b), St OK)
  | _, _ => ([], EBADF)
  end.
(** requests to the root and to the metadata node.  [QOther]: mkdir, create, unlink, rename, link, symlink,
    mknod, chmod, chown, utimens, fallocate, setxattr, removexattr on either: go-fuse's default node *)
Inductive mreq := QOpen (flags : Z) | QRead (h : nat) (off n : Z) | QWrite (h : nat) (off : Z) (data : list byte) | QTruncate (size : Z) | QFsync (h : nat) | QRelease (h : nat) | QOther.
Inductive manswer := AHandle (h : option nat) (s : tstatus) | ABytes (b : list byte) (s : tstatus) | AStatus (s : tstatus).
(** go-fuse: readOnlyFile.Write is EPERM, Fsync OK; defaultNode answers ENOSYS to what changes a node *)
Definition metadata_step (may : Z -> bool) (m : mfile) (r : mreq) : mfile * manswer :=
  match r with
  | QOpen flags => let '(m, h, s) := metadata_Open may m flags in (m, AHandle h s)
  | QRead h off n => (m, let '(b, s) := metadata_Read m h off n in ABytes b s)
  | QWrite _ _ _ => (m, AStatus EPERM)
  | QTruncate _ => (m, AStatus ENOSYS)
  | QFsync _ => (m, AStatus (St OK))
  | QRelease _ => (m, AStatus (St OK))
  | QOther => (m, AStatus ENOSYS)
  end.
Fixpoint metadata_run (may : Z -> bool) (m : mfile) (rs : list mreq) : mfile * list manswer :=
  match rs with
  | [] => (m, [])
  | r :: rs => let '(m, a) := metadata_step may m r in let '(m, l) := metadata_run may m rs in (m, a :: l)
  end.
(** Linux takes O_CREAT, O_EXCL and (go-fuse does not ask for atomic truncation) O_TRUNC out of the flags of an open *)
Definition from_kernel (r : mreq) : Prop := match r with QOpen flags => has flags O_CREAT = false /\ has flags O_EXCL = false /\ has flags O_TRUNC = false | _ => True end.

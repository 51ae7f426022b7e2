(** Specification: what a mount shows of any volume whose items can be decoded (C83, C84): with special files,
    empty files, entries without inode items, several entries of one name. *)
From Verif Require Import Go Layout SpecLayout KeyFmt IoUtil Path Fs Recover SpecFs SpecContent SpecTree SpecLoss Rescue PropsRescueRead PropsRescueNode SpecMount.
From Coq Require Import List Permutation.

(** a volume: the directory items of each directory of each tree, and the inode items *)
Definition listing := Z -> Z -> list d_dir_item.
Definition inode_table := Z -> Z -> option d_inode.
(** what directory items lead to from the top of the main tree *)
Inductive reach (contents : listing) : Z -> Z -> Prop :=
| reach_top : reach contents FSTreeObjectID FirstFreeObjectID
| reach_entry o d x : reach contents o d -> In x (contents o d) -> reach contents (fst (leads_to o x)) (snd (leads_to o x)).
(** the index holds the volume *)
Definition holds (q : queries) (contents : listing) (inodes : inode_table) : Prop := forall o i, reach contents o i ->
  dir_holds q o i (contents o i) /\ match inodes o i with Some x => has_inode q o i x | None => q_inode q o i = Ok None end.
(** path [p] leads to this key and this is (is not) a directory; everything on the way has an inode item *)
Inductive at_path (contents : listing) (inodes : inode_table) : cpath -> Z * Z -> bool -> Prop :=
| at_top : at_path contents inodes [] main_top true
| at_entry p o d name x : at_path contents inodes p (o, d) true -> last_named (contents o d) name = Some x ->
    inodes (fst (leads_to o x)) (snd (leads_to o x)) <> None -> at_path contents inodes (p ++ [name]) (leads_to o x) (di_type x =? 2).
(** attributes and status for a key *)
Definition attr_answer (inodes : inode_table) (k : Z * Z) : option attr * status :=
  match inodes (fst k) (snd k) with Some x => (Some (attr_of (snd k) x), OK) | None => (None, ENOATTR) end.
(** Node [n] answers as the volume demands.  [q] is the index, [qi] the index as the program reads it. *)
Definition shows_key (q qi : queries) (D : list byte) (dev : readerAt) (contents : listing) (inodes : inode_table) (n : node_state) : Prop :=
  let o := n_owner n in let i := n_inode n in
  (* attributes *)
  (exists n', GetAttr qi n = Ok (n', fst (attr_answer inodes (o, i)), snd (attr_answer inodes (o, i)))) /\
  (* the directory: of several items of one name the last; S_IFDIR for directories, S_IFREG for everything else *)
  (forall ord, (forall m, Permutation (ord m) m) -> exists n' es, OpenDir qi ord n = Ok (n', es) /\ NoDup (map fst es) /\
     forall name mode, In (name, mode) es <-> exists x, last_named (contents o i) name = Some x /\ mode = if di_type x =? 2 then S_IFDIR else S_IFREG) /\
  (forall name, match last_named (contents o i) name with
     | None => exists n', Lookup qi n name = Ok (n', None, None, ENOENT)
     | Some x => let k := leads_to o x in exists n' c, Lookup qi n name = Ok (n', Some (c, di_type x =? 2), fst (attr_answer inodes k), snd (attr_answer inodes k)) /\ (n_owner c, n_inode c) = k
     end) /\
  (* a file without gaps that can be read from the device *)
  (forall c xs x, inodes o i = Some x -> file_shows q D o i c -> Forall2 (is_extent q) (st_items (q_extents q o i)) xs -> gapless xs (in_size x) -> Forall (ext_readable dev) xs ->
     in_size x = zlen c /\ exists f, Open qi n = Ok (Some f, OK) /\ forall buf, buf <> [] -> zlen c + zlen buf < 2^63 -> exists fuel, read_on fuel (Reader dev) f buf (zlen c) [] = Some c) /\
  (* without extents nothing can be opened *)
  (st_items (q_extents q o i) = [] -> st_end (q_extents q o i) = Ok tt -> Open qi n = Ok (None, ENOENT)) /\
  (* links *)
  (forall t, link_shows q D o i t -> (exists e, q_extent0 q o i = Ok (Some e) /\ FileExtentItem_Type e = Ok 0) -> Readlink qi n = Ok (Some t, OK)) /\
  (q_extent0 q o i = Ok None -> Readlink qi n = Ok (None, ENODATA)).

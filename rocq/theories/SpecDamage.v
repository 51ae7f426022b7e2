(** Specification of a damaged device and of what is not affected by the damage (C75). *)
From Verif Require Import Go Layout KeyFmt IoUtil Path Fs Recover SpecFs SpecContent SpecTree.
From Coq Require Import List.

(** The bytes at [bad] positions of the device may be unreadable.  Reads never invent data (what
    arrives, before an error or without one, is on the device) and reads that touch no bad
    position and stay within the device work. *)
Definition damaged (bad : Z -> Prop) (D : list byte) (dev : readerAt) : Prop :=
  reads_from D dev /\ forall n off, 0 <= off -> 0 <= n -> off + n <= zlen D -> (forall i, off <= i < off + n -> ~ bad i) -> snd (dev n off) = None.
(** the data of regular file [i] of tree [o] is on no bad position *)
Definition file_safe (q : queries) (bad : Z -> Prop) (o i : Z) : Prop := forall xs off n src p,
  Forall2 (is_extent q) (st_items (q_extents q o i)) xs -> In (Disk off n src) xs -> src <= p < src + n -> ~ bad p.
(** the target of symbolic link [i] of tree [o] is inline or on no bad position *)
Definition link_safe (q : queries) (bad : Z -> Prop) (o i : Z) : Prop := forall e ty n nr id phys eo p,
  q_extent0 q o i = Ok (Some e) -> FileExtentItem_Type e = Ok ty -> ty <> 0 -> FileExtentItem_NumBytes e = Ok n -> FileExtentItem_DiskByteNr e = Ok nr ->
  q_physical q nr = Ok (id, phys) -> FileExtentItem_Offset e = Ok eo -> (phys + eo) mod 2^64 <= p < (phys + eo) mod 2^64 + n -> ~ bad p.
(** what counts as a good file or link: a property of tree and inode *)
Record good := mkGood { good_file : Z -> Z -> Prop; good_link : Z -> Z -> Prop }.
Definition safe (q : queries) (bad : Z -> Prop) : good := mkGood (file_safe q bad) (link_safe q bad).
(** the path leads, from directory [d] of tree [o] (or from an item of a directory of tree [o]), to a
    directory, or to a good file or link *)
Inductive reaches (q : queries) (G : good) : Z -> Z -> cpath -> Prop :=
| intact_here o d : reaches q G o d []
| intact_entry o d k di r : In (k, di) (st_items (q_dirItems q o d)) -> item_reaches q G o di r -> reaches q G o d r
with item_reaches (q : queries) (G : good) : Z -> slice -> cpath -> Prop :=
| intact_file o di n loc : says di n FtRegFile loc -> KType loc <> RootItemKey -> good_file G o (ObjectID loc) -> item_reaches q G o di [n]
| intact_link o di n loc : says di n FtSymlink loc -> KType loc <> RootItemKey -> good_link G o (ObjectID loc) -> item_reaches q G o di [n]
| intact_sub o di n o' d' r : DirItem_Name di = Ok n -> names_dir o di (o', d') -> reaches q G o' d' r -> item_reaches q G o di (n :: r).
(** the same for everything recover restores; the names subvol_N count only where the top directory has no such name *)
Inductive vol_reaches (q : queries) (G : good) : cpath -> Prop :=
| vol_main r : reaches q G FSTreeObjectID FirstFreeObjectID r -> vol_reaches q G r
| vol_extra k d n r : In (k, d) (st_items (q_subvolumes q)) -> n = subvol_prefix ++ dec (ObjectID (ik_Key k)) ->
    (forall k' di, In (k', di) (st_items (q_dirItems q FSTreeObjectID FirstFreeObjectID)) -> DirItem_Name di <> Ok n) ->
    reaches q G (ObjectID (ik_Key k)) FirstFreeObjectID r -> vol_reaches q G (n :: r).
(** [vol_intact q bad r]: path [r] leads to a directory, or to a file or link that is safe *)
Notation intact q bad := (reaches q (safe q bad)).
Notation item_intact q bad := (item_reaches q (safe q bad)).
Notation vol_intact q bad := (vol_reaches q (safe q bad)).

(** ** An index from which metadata is missing (C76) *)
(** The index has answers about regular file [i] of tree [o] that make some sense: those of its extents
    that are there can be decoded, lie below the largest file offset and are not absurdly long, and
    the inode item is missing or has a size below the largest file offset.  The data need not be on the device. *)
Definition file_legible (q : queries) (o i : Z) : Prop :=
  (exists xs, Forall2 (is_extent q) (st_items (q_extents q o i)) xs /\
     Forall (fun x => ext_off x + ext_len x < 2^63 /\ (forall off n, x = Hole off n -> n <= 2^48)) xs) /\
  st_end (q_extents q o i) = Ok tt /\
  (q_inode q o i = Ok None \/ exists it s, q_inode q o i = Ok (Some it) /\ InodeItem_Size it = Ok s /\ s < 2^63).
(** the same for a symbolic link: its extent is missing, or it can be decoded and is not absurdly long *)
Definition link_legible (q : queries) (o i : Z) : Prop :=
  q_extent0 q o i = Ok None \/
  exists e ty, q_extent0 q o i = Ok (Some e) /\ FileExtentItem_Type e = Ok ty /\
    ((ty = 0 /\ exists d, FileExtentItem_Data e = Ok d) \/
     (ty <> 0 /\ FileExtentItem_DiskByteNr e = Ok 0) \/
     (ty <> 0 /\ exists nr n eo p, FileExtentItem_DiskByteNr e = Ok nr /\ FileExtentItem_NumBytes e = Ok n /\ FileExtentItem_Offset e = Ok eo /\ q_physical q nr = Ok p /\ n <= 2^48)).
(** the tree the items in the index list: all its files and links are legible; where the index and the device
    say what the content is, it is that, elsewhere it can be anything *)
Definition listed (q : queries) (D : list byte) : ask :=
  mkAsk (fun o i c => file_legible q o i /\ forall c', file_shows q D o i c' -> c = c')
        (fun o i t => link_legible q o i /\ forall t', link_shows q D o i t' -> t = t').
Notation volume_lists q D := (volume_shape q (listed q D)).
(** nothing of the file or link itself is missing: not its items and not its data *)
Definition complete (q : queries) (D : list byte) (bad : Z -> Prop) : good :=
  mkGood (fun o i => (exists c, file_shows q D o i c) /\ file_safe q bad o i)
         (fun o i => (exists t, link_shows q D o i t) /\ link_safe q bad o i).

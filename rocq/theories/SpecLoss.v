(** Specification: an index from which items of a sound volume are missing, and what is not affected (C77). *)
From Verif Require Import Go Layout KeyFmt IoUtil Path ToString Fs Recover SpecFs SpecContent SpecTree SpecDamage.
From Coq Require Import List Relations.

(** [l'] is [l] without some of its elements *)
Inductive part_of {X} : list X -> list X -> Prop :=
| po_nil : part_of [] []
| po_keep x l' l : part_of l' l -> part_of (x :: l') (x :: l)
| po_drop x l' l : part_of l' l -> part_of l' (x :: l).
(** Index [q'] is index [q] with items missing: directory entries, extents, inode items, link targets, root
    items of subvolumes.  Where chunk items are missing the addresses in use still have to be mapped the same way. *)
Record misses (q q' : queries) : Prop := mkMisses {
  ms_dirs : forall o d, part_of (st_items (q_dirItems q' o d)) (st_items (q_dirItems q o d)) /\ st_end (q_dirItems q' o d) = Ok tt;
  ms_inode : forall o i, q_inode q' o i = Ok None \/ q_inode q' o i = q_inode q o i;
  ms_exts : forall o i, part_of (st_items (q_extents q' o i)) (st_items (q_extents q o i)) /\ st_end (q_extents q' o i) = Ok tt;
  ms_ext0 : forall o i, q_extent0 q' o i = Ok None \/ q_extent0 q' o i = q_extent0 q o i;
  ms_phys : forall l p, q_physical q l = Ok p -> q_physical q' l = Ok p;
  ms_subs : part_of (st_items (q_subvolumes q')) (st_items (q_subvolumes q)) /\ st_end (q_subvolumes q') = Ok tt }.
(** position [p] of device [D'] is not [bad] and holds what it held on [D] *)
Definition same_byte (D D' : list byte) (bad : Z -> Prop) (p : Z) : Prop := byte_at D' p = byte_at D p /\ ~ bad p.
(** files and links of which nothing is missing: the complete index and device give their content, their items are
    all there, and their data on the device is unchanged and readable *)
Definition untouched (q q' : queries) (D D' : list byte) (bad : Z -> Prop) : good :=
  mkGood (fun o i => (exists c, file_shows q D o i c) /\ st_items (q_extents q' o i) = st_items (q_extents q o i) /\ q_inode q' o i = q_inode q o i /\
            forall xs off n src p, Forall2 (is_extent q) (st_items (q_extents q o i)) xs -> In (Disk off n src) xs -> src <= p < src + n -> same_byte D D' bad p)
         (fun o i => (exists t, link_shows q D o i t) /\ q_extent0 q' o i = q_extent0 q o i /\
            forall e ty n nr id phys eo p, q_extent0 q o i = Ok (Some e) -> FileExtentItem_Type e = Ok ty -> ty <> 0 -> FileExtentItem_NumBytes e = Ok n -> FileExtentItem_DiskByteNr e = Ok nr ->
              q_physical q nr = Ok (id, phys) -> FileExtentItem_Offset e = Ok eo -> (phys + eo) mod 2^64 <= p < (phys + eo) mod 2^64 + n -> same_byte D D' bad p).
(** [k'] is [k] or a directory below it *)
Definition below (q : queries) : Z * Z -> Z * Z -> Prop := clos_refl_trans_1n (Z * Z) (edge q).
(** the top directory of the main tree, and of the subvolume with root item [e] *)
Definition main_top : Z * Z := (FSTreeObjectID, FirstFreeObjectID).
Definition sub_top (e : list byte * slice) : Z * Z := (ObjectID (ik_Key (fst e)), FirstFreeObjectID).
(** the name recover makes up for a subvolume no directory leads to *)
Definition made_up (e : list byte * slice) : list byte := subvol_prefix ++ dec (ObjectID (ik_Key (fst e))).
(** a subvolume that lies in another one comes after it in the list of subvolumes (it was made later, its id is larger) *)
Definition parents_first (q : queries) : Prop :=
  ForallOrdPairs (fun m n => sub_top m = sub_top n \/ ~ below q (sub_top n) (sub_top m)) (st_items (q_subvolumes q)).
(** no entry of the top directory of the main tree has a name recover might make up *)
Definition no_made_up (q : queries) : Prop := forall e k di, In e (st_items (q_subvolumes q)) ->
  In (k, di) (st_items (q_dirItems q FSTreeObjectID FirstFreeObjectID)) -> DirItem_Name di <> Ok (made_up e).
(** in index [q] no directory leads to subvolume [e] *)
Definition orphan (q : queries) (e : list byte * slice) : Prop := ~ below q main_top (sub_top e) /\
  forall e', In e' (st_items (q_subvolumes q)) -> sub_top e' <> sub_top e -> ~ below q (sub_top e') (sub_top e).

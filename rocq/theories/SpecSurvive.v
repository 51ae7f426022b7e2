(** Specification: items that do not stop the commands (C85, C86).  Everything in terms of the bytes of the
    items. *)
From Verif Require Import Go Layout KeyFmt Fs Recover SpecFs.
From Coq Require Import List.

(** the little endian number in bytes [off], ..., [off + n - 1] of an item *)
Definition fld (s : slice) (off n : nat) : Z := le_decode (firstn n (skipn off (sbytes s))).
Definition blen (s : slice) : Z := zlen (sbytes s).
(** a directory item: 30 bytes and the name, whose length is at byte 27 (the code takes no more than 255 bytes of it) *)
Definition dir_item_whole (s : slice) : Prop := slice_wf s /\ 30 + Z.min 255 (fld s 27 2) <= blen s.
(** a file extent: the type is byte 20; inline: the data (its length is at byte 8; no more than 16384 is taken)
    follow at byte 21; otherwise 53 bytes, and a hole is not longer than what can be allocated, data has an address that can be translated *)
Definition extent_whole (q : queries) (s : slice) : Prop := slice_wf s /\ 21 <= blen s /\
  (fld s 20 1 = 0 -> fld s 8 8 < 2^63 /\ 21 + Z.min 16384 (fld s 8 8) <= blen s) /\
  (fld s 20 1 <> 0 -> 53 <= blen s /\ (fld s 21 8 = 0 -> fld s 45 8 <= 2^48) /\ (fld s 21 8 <> 0 -> exists p, q_physical q (fld s 21 8) = Ok p)).
(** an inode item, as far as recover needs it: the size is at byte 16 and below the largest file offset *)
Definition size_whole (s : slice) : Prop := slice_wf s /\ 24 <= blen s /\ fld s 16 8 < 2^63.
Definition file_whole (q : queries) (o i : Z) : Prop :=
  st_end (q_extents q o i) = Ok tt /\
  (forall k e, In (k, e) (st_items (q_extents q o i)) -> extent_whole q e /\ (fld e 20 1 = 0 -> 0 <= KOffset (ik_Key k) < 2^63)) /\
  (q_inode q o i = Ok None \/ exists it, q_inode q o i = Ok (Some it) /\ size_whole it).
Definition link_whole (q : queries) (o i : Z) : Prop :=
  q_extent0 q o i = Ok None \/
  exists e, q_extent0 q o i = Ok (Some e) /\ extent_whole q e /\ (fld e 20 1 <> 0 -> fld e 45 8 <= 2^48).
(** in every directory that can be reached: all items are whole, and so is everything known about the files (type
    1 at byte 29) and links (type 7) they lead to (object id at byte 0, key type at byte 8; 132 is a subvolume) *)
Definition volume_whole (q : queries) : Prop :=
  st_end (q_subvolumes q) = Ok tt /\
  forall o d, reachable q (o, d) -> st_end (q_dirItems q o d) = Ok tt /\
    forall k s, In (k, s) (st_items (q_dirItems q o d)) -> dir_item_whole s /\
      (fld s 8 1 <> 132 -> fld s 29 1 = 1 -> file_whole q o (fld s 0 8)) /\
      (fld s 8 1 <> 132 -> fld s 29 1 = 7 -> link_whole q o (fld s 0 8)).

(** ** the mount command (C86) *)
From Verif Require Import Rescue.
(** an inode item: the last field that is used ends at byte 148 *)
Definition inode_whole (s : slice) : Prop := slice_wf s /\ 148 <= blen s.
(** an attribute: the name (length at byte 27) and the value (length at byte 25) follow at byte 30 *)
Definition xattr_whole (s : slice) : Prop := slice_wf s /\ fld s 27 2 <= 255 /\ 30 + fld s 27 2 + fld s 25 2 <= Z.min (blen s) 65535.
(** an inline extent (as in extent_whole) *)
Definition inline_whole (s : slice) : Prop := slice_wf s /\ 21 <= blen s /\ fld s 8 8 < 2^63 /\ 21 + Z.min 16384 (fld s 8 8) <= blen s.
(** an extent on the device, or a hole *)
Definition mapped_whole (q : queries) (s : slice) : Prop := slice_wf s /\ 53 <= blen s /\ (fld s 21 8 <> 0 -> exists p, q_physical q (fld s 21 8) = Ok p).
(** files: the first extent is inline, or all extents (whatever type they are) are whole as extents on the device *)
Definition openable (q : queries) (o i : Z) : Prop := st_end (q_extents q o i) = Ok tt /\
  match st_items (q_extents q o i) with
  | [] => True
  | (_, e) :: _ => 21 <= blen e /\ (fld e 20 1 = 0 -> inline_whole e) /\ (fld e 20 1 <> 0 -> forall k e', In (k, e') (st_items (q_extents q o i)) -> mapped_whole q e')
  end.
Definition linkable (q : queries) (o i : Z) : Prop :=
  q_extent0 q o i = Ok None \/ exists e, q_extent0 q o i = Ok (Some e) /\ slice_wf e /\ 21 <= blen e /\ (fld e 20 1 = 0 -> inline_whole e).
(** what directory items lead to, from the top directory of tree 5; is it a directory (type 2 at byte 29) *)
Inductive leads (q : queries) : Z * Z -> bool -> Prop :=
| leads_top : leads q (5, 256) true
| leads_to o d k s : leads q (o, d) true -> In (k, s) (st_items (q_dirItems q o d)) ->
    leads q (if fld s 8 1 =? 132 then (fld s 0 8, 256) else (o, fld s 0 8)) (fld s 29 1 =? 2).
(** everything found that way is whole; [xattrs]: the attribute items of an inode *)
Definition mount_whole (q : queries) (xattrs : Z -> Z -> stream) : Prop := forall o i isd, leads q (o, i) isd ->
  (q_inode q o i = Ok None \/ exists it, q_inode q o i = Ok (Some it) /\ inode_whole it) /\
  (isd = true -> st_end (q_dirItems q o i) = Ok tt /\ forall k s, In (k, s) (st_items (q_dirItems q o i)) -> dir_item_whole s) /\
  (isd = false -> openable q o i /\ linkable q o i) /\
  (st_end (xattrs o i) = Ok tt /\ forall k s, In (k, s) (st_items (xattrs o i)) -> xattr_whole s).
(** a device delivers no more than it is asked for *)
Definition bounded (dev : device_arg) : Prop := forall n off, 0 <= n -> zlen (fst (device_read dev n off)) <= n.

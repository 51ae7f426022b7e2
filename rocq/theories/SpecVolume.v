(** Specification: a btrfs volume with one tree of files, as the items that make it up (C93).
    Nothing of the program is used: object numbers, names, attributes and places of the data are
    given, and the items follow from them. *)
From Verif Require Import Go Layout SpecLayout KeyFmt Session IoUtil Crc Path Fs SpecFs SpecContent SpecTree SpecStore SpecDisk.
From Coq Require Import List Sorting.Sorted.

Open Scope Z_scope.

(** a part of a file outside of the metadata: a hole of [n] bytes, or the bytes [d] at logical address [a] *)
Inductive piece := PHole (n : Z) | PData (a : Z) (d : list byte).
Definition piece_bytes (p : piece) : list byte := match p with PHole n => repeat x00 (Z.to_nat n) | PData _ d => d end.
(** file data: within the item, or in pieces that follow each other, of which the file uses [size] bytes *)
Inductive body := InItem (c : list byte) | Pieces (size : Z) (ps : list piece).
Definition content (b : body) : list byte := match b with InItem c => c | Pieces size ps => firstn (Z.to_nat size) (concat (map piece_bytes ps)) end.
(** the tree: every object has a number *)
Inductive vtree := VFile (ino : Z) (b : body) | VLink (ino : Z) (target : list byte) | VDir (ino : Z) (kids : list (list byte * vtree)).
Definition v_ino (v : vtree) : Z := match v with VFile i _ | VLink i _ | VDir i _ => i end.
Definition v_type (v : vtree) : Z := match v with VFile _ _ => 1 | VDir _ _ => 2 | VLink _ _ => 7 end.
(** the file tree it stands for *)
Fixpoint tree_of (v : vtree) : tree :=
  match v with
  | VFile _ b => TFile (content b)
  | VLink _ t => TLink t
  | VDir _ kids => TDir (map (fun k => (fst k, tree_of (snd k))) kids)
  end.
(** all objects *)
Fixpoint nodes (v : vtree) : list vtree := v :: match v with VDir _ kids => flat_map (fun k => nodes (snd k)) kids | _ => [] end.

(** every file has an extent, so that mount can open it (see C53) *)
Definition no_empty (v : vtree) : Prop := forall i size, ~ In (VFile i (Pieces size [])) (nodes v).

(** ** items *)
Section Items.
  (** [attrs]: the inode of an object *)
  Variable attrs : Z -> d_inode.
  Definition inode_item (i : Z) : Key * list byte := (mkKey i 1 0, ser (inode_fields (attrs i))).
  (** an entry of directory [i]: its key has the hash of the name *)
  Definition name_item (i : Z) (k : list byte * vtree) : Key * list byte :=
    (mkKey i 84 (NameHash (fst k)),
     ser (dir_item_fields {| di_location := {| k_objectid := v_ino (snd k); k_type := 1; k_offset := 0 |};
       di_transid := in_generation (attrs (v_ino (snd k))); di_type := v_type (snd k); di_name := fst k; di_data := [] |})).
  Definition ext_head (i ram ty : Z) : d_fe_head :=
    {| fe_generation := in_generation (attrs i); fe_ram_bytes := ram; fe_compression := 0; fe_encryption := 0; fe_other_encoding := 0; fe_type := ty |}.
  Definition inline_item (i : Z) (c : list byte) : Key * list byte :=
    (mkKey i 108 0, ser (fe_inline_fields {| fi_head := ext_head i (zlen c) 0; fi_data := c |})).
  Definition piece_item (i off : Z) (p : piece) : Key * list byte :=
    (mkKey i 108 off,
     ser (fe_reg_fields
       match p with
       | PHole n => {| fr_head := ext_head i n 1; fr_disk_bytenr := 0; fr_disk_num_bytes := 0; fr_offset := 0; fr_num_bytes := n |}
       | PData a d => {| fr_head := ext_head i (zlen d) 1; fr_disk_bytenr := a; fr_disk_num_bytes := zlen d; fr_offset := 0; fr_num_bytes := zlen d |}
       end)).
  Definition piece_len (p : piece) : Z := match p with PHole n => n | PData _ d => zlen d end.
  Fixpoint piece_items (i off : Z) (ps : list piece) : list (Key * list byte) :=
    match ps with [] => [] | p :: ps => piece_item i off p :: piece_items i (off + piece_len p) ps end.
  (** the items of one object *)
  Definition own (v : vtree) : list (Key * list byte) :=
    inode_item (v_ino v) ::
    match v with
    | VFile i (InItem c) => [inline_item i c]
    | VFile i (Pieces _ ps) => piece_items i 0 ps
    | VLink i t => [inline_item i t]
    | VDir i kids => map (name_item i) kids
    end.
  Definition items (v : vtree) : list (Key * list byte) := flat_map own (nodes v).

  (** ** sound volumes on the image [D]; there is one chunk [c] of logical addresses from [f] *)
  Variables (D : list byte) (f : Z) (c : d_chunk).
  Definition piece_ok (p : piece) : Prop :=
    match p with
    | PHole n => 0 < n <= 2^48
    | PData a d => 0 < zlen d /\ 0 < a /\ f <= a /\ a + zlen d <= f + ch_length c /\
        exists s r, ch_stripes c = s :: r /\ let p := st_offset s + (a - f) in p + zlen d <= zlen D /\ d = firstn (length d) (skipn (Z.to_nat p) D)
    end.
  Definition body_ok (b : body) : Prop :=
    match b with
    | InItem c => zlen c <= 16384
    | Pieces size ps => 0 <= size <= zlen (concat (map piece_bytes ps)) /\ zlen (concat (map piece_bytes ps)) < 2^62 /\ Forall piece_ok ps
    end.
  Definition node_ok (v : vtree) : Prop :=
    256 <= v_ino v <= 2^64 - 256 /\ fits (inode_fields (attrs (v_ino v))) /\ inode_times_ok (attrs (v_ino v)) /\
    match v with
    | VFile i b => in_size (attrs i) = zlen (content b) /\ body_ok b
    | VLink _ t => path_arg t = true
    | VDir _ kids => Forall (fun k => name_ok (fst k)) kids /\ StronglySorted Z.lt (map (fun k => NameHash (fst k)) kids)
    end.
  (** the top directory has number 256, numbers are not used twice.  Entries of a directory are given
      in the order of the hashes of their names, which must differ. *)
  Definition sound_volume (v : vtree) : Prop :=
    v_ino v = 256 /\ v_type v = 2 /\ NoDup (map v_ino (nodes v)) /\ Forall node_ok (nodes v).
  Definition sound_chunk : Prop :=
    is_u64 f /\ fits (chunk_fields c) /\ zlen (ser (chunk_fields c)) < 65536 /\
    match ch_stripes c with s :: _ => 0 <= st_offset s /\ st_offset s + f + ch_length c <= 2^64 | [] => False end.

  (** ** an image carries the volume *)
  (** what the tree of files does not need: back references, xattrs, checksums, the extent tree ... *)
  Definition harmless (x : Z * (Key * list byte)) : Prop :=
    let '(o, (k, _)) := x in
    KType k < 255 /\ KType k <> 84 /\ KType k <> 108 /\ KType k <> 228 /\ (o = 5 -> KType k <> 1) /\ (o = 1 -> KType k = 132 -> ObjectID k < 256).
  (** the first item after tree [o] has a key that tree [o] does not have *)
  Definition apart (is : list insertion) (o : Z) : Prop :=
    forall j, In j is -> o < i_owner j ->
     (forall e, In e is -> o < i_owner e -> i_owner j < i_owner e \/ (i_owner j = i_owner e /\ key_le (i_key j) (i_key e))) ->
     forall i, In i is -> i_owner i = o -> i_key i <> i_key j.
  (** [is]: the items of the leaves of the image, in any order and number of copies; tree 5 holds the
      files and tree 3 the chunk; the items of one type of an object are of one generation *)
  Definition carries_volume (is : list insertion) (v : vtree) : Prop :=
    (exists others, Forall harmless others /\
      forall o k d, (exists i, In i is /\ i_owner i = o /\ i_key i = k /\ i_data i = d) <->
        (o = 5 /\ In (k, d) (items v)) \/ (o = 3 /\ k = mkKey 256 228 f /\ d = ser (chunk_fields c)) \/ In (o, (k, d)) others) /\
    (forall i j, In i is -> In j is -> i_owner i = i_owner j -> ObjectID (i_key i) = ObjectID (i_key j) -> KType (i_key i) = KType (i_key j) -> i_gen i = i_gen j) /\
    (forall i, In i is -> i_gen i < 2^64 - 1) /\ apart is 3 /\ apart is 5.
End Items.

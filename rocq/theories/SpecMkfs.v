(** Specification: a writer of volumes (C93).  For any tree of files it gives an image: not the layout a
    real mkfs would choose, but a valid one.  Every item has a leaf of its own; files of up to 2048
    bytes are stored in their item, larger ones in data blocks; there is one chunk, that maps the
    logical addresses to the same places of the device.  Nothing of the program is used. *)
From Verif Require Import Go Layout SpecLayout KeyFmt Crc Path Fs SpecFs SpecContent SpecTree SpecVolume.
From Coq Require Import List.
From Verif Require Import Go.
Open Scope Z_scope.

Definition BS : Z := 16384.
(** ** directory entries by the hash of their names *)
Definition hash_of (k : list byte * tree) : Z := NameHash (fst k).
Fixpoint insert_kid (k : list byte * tree) (l : list (list byte * tree)) : list (list byte * tree) :=
  match l with [] => [k] | x :: r => if hash_of k <? hash_of x then k :: l else x :: insert_kid k r end.
Definition sort_kids (l : list (list byte * tree)) : list (list byte * tree) := fold_right insert_kid [] l.
Fixpoint sort_tree (t : tree) : tree :=
  match t with TDir kids => TDir (sort_kids (map (fun k => (fst k, sort_tree (snd k))) kids)) | _ => t end.

(** ** numbers and places *)
(** data in blocks, the last one filled up with zero bytes *)
Definition pad (c : list byte) : list byte := c ++ repeat x00 (Z.to_nat ((- zlen c) mod BS)).
Fixpoint chop (n : nat) (d : list byte) : list (list byte) :=
  match n with O => [] | S n => firstn (Z.to_nat BS) d :: chop n (skipn (Z.to_nat BS) d) end.
Definition data_blocks (c : list byte) : list (list byte) := chop (Z.to_nat (zlen (pad c) / BS)) (pad c).
(** where data block number [k] goes: the space before it holds no blocks that recon reads *)
Definition address (k : Z) : Z := 65536 + BS * (k + 1).
(** [place t i bl]: numbers from [i], data after the blocks [bl] *)
Fixpoint place (t : tree) (i : Z) (bl : list (list byte)) : vtree * Z * list (list byte) :=
  match t with
  | TFile c => if zlen c <=? 2048 then (VFile i (InItem c), i + 1, bl)
               else (VFile i (Pieces (zlen c) [PData (address (zlen bl)) (pad c)]), i + 1, bl ++ data_blocks c)
  | TLink s => (VLink i s, i + 1, bl)
  | TDir kids =>
      let fix go kids i bl :=
        match kids with
        | [] => ([], i, bl)
        | (n, t) :: r => let '(v, i, bl) := place t i bl in let '(vs, i, bl) := go r i bl in ((n, v) :: vs, i, bl)
        end in
      let '(vs, j, bl) := go kids (i + 1) bl in (VDir i vs, j, bl)
  end.

(** ** attributes: [base] with the right size *)
Definition set_size (d : d_inode) (n : Z) : d_inode :=
  {| in_generation := in_generation d; in_transid := in_transid d; in_size := n; in_nbytes := in_nbytes d; in_block_group := in_block_group d;
     in_nlink := in_nlink d; in_uid := in_uid d; in_gid := in_gid d; in_mode := in_mode d; in_rdev := in_rdev d; in_flags := in_flags d; in_sequence := in_sequence d;
     in_res0 := in_res0 d; in_res1 := in_res1 d; in_res2 := in_res2 d; in_res3 := in_res3 d;
     in_atime := in_atime d; in_ctime := in_ctime d; in_mtime := in_mtime d; in_otime := in_otime d |}.
Definition attrs_of (base : Z -> d_inode) (v : vtree) (i : Z) : d_inode :=
  match List.find (fun w => v_ino w =? i) (nodes v) with Some (VFile _ b) => set_size (base i) (zlen (content b)) | _ => base i end.

(** ** blocks *)
Section Write.
  Variables (id : list byte) (gen : Z) (base : Z -> d_inode).
  Definition header (o : Z) : d_header := {| h_csum := repeat x00 32; h_fsid := id; h_bytenr := 0; h_flags := 1;
    h_chunk_tree_uuid := repeat x00 16; h_generation := gen; h_owner := o; h_nritems := 1; h_level := 0 |}.
  Definition one_item (x : Key * list byte) : leaf_entry :=
    {| le_key := {| k_objectid := ObjectID (fst x); k_type := KType (fst x); k_offset := KOffset (fst x) |}; le_data := snd x |}.
  Definition leaf_of (o : Z) (x : Key * list byte) : list byte :=
    leaf_block (header o) BS [one_item x] (repeat x00 (Z.to_nat (BS - 101 - 25 - zlen (snd x)))).
  Definition whole_chunk : d_chunk := {| ch_length := 2^63; ch_owner := 2; ch_stripe_len := 65536; ch_type := 1; ch_io_align := 4096;
    ch_io_width := 4096; ch_sector_size := 4096; ch_sub_stripes := 1; ch_stripes := [ {| st_devid := 1; st_offset := 0; st_dev_uuid := repeat x00 16 |} ] |}.
  Definition chunk_item : Key * list byte := (mkKey 256 228 0, ser (chunk_fields whole_chunk)).
  (** the volume, its data, and the blocks of the image *)
  Definition volume (t : tree) : vtree := fst (fst (place (sort_tree t) 256 [])).
  Definition data_of (t : tree) : list (list byte) := snd (place (sort_tree t) 256 []).
  Definition volume_blocks (t : tree) : list (list byte) :=
    data_of t ++ leaf_of 3 chunk_item :: map (leaf_of 5) (items (attrs_of base (volume t)) (volume t)).
  (** the image, with [N] bytes of free space *)
  Definition mkfs (t : tree) (N : Z) : list byte :=
    repeat x00 (Z.to_nat (65536 + BS)) ++ concat (volume_blocks t) ++ repeat x00 (Z.to_nat N).
End Write.

(** ** trees that can be written *)
Definition hashes (kids : list (list byte * tree)) : list Z := map hash_of kids.
Fixpoint writable (t : tree) : Prop :=
  match t with
  | TFile _ => True
  | TLink s => path_arg s = true
  | TDir kids => Forall (fun k => name_ok (fst k)) kids /\ NoDup (hashes kids) /\
      (fix all (l : list (list byte * tree)) := match l with [] => True | k :: r => writable (snd k) /\ all r end) kids
  end.

(** Specification: the packed little-endian on-disk structures of btrfs,
    written as ordered field lists (width in bytes, value), independently of
    the accessors in Layout.v.  Field names and widths are those of the btrfs
    on-disk format (struct btrfs_inode_item etc.). *)
From Verif Require Import Go.

(** A field: an unsigned integer of [w] bytes, or [w] raw bytes. *)
Inductive fld := I (w : nat) (v : Z) | Raw (w : nat) (bs : list byte).
Definition fw (f : fld) : Z := match f with I w _ => Z.of_nat w | Raw w _ => Z.of_nat w end.
Definition ser1 (f : fld) : list byte := match f with I w v => le_encode w v | Raw _ bs => bs end.
(** the bytes of a packed structure *)
Definition ser (fs : list fld) : list byte := flat_map ser1 fs.
Fixpoint sumw (fs : list fld) : Z := match fs with [] => 0 | f :: r => fw f + sumw r end.
(** every value fits its field *)
Definition fit1 (f : fld) : Prop :=
  match f with I w v => 0 <= v < 256 ^ Z.of_nat w | Raw w bs => length bs = w end.
Definition fits (fs : list fld) : Prop := Forall fit1 fs.
(** [s] holds the packed structure at its beginning, anything may follow *)
Definition carries (s : slice) (fs : list fld) : Prop :=
  slice_wf s /\ fits fs /\ exists rest, s_arr s = ser fs ++ rest /\ zlen (ser fs) <= s_len s.

(** a signed 64 bit value as stored *)
Definition s64 (x : Z) : Z := x mod 2^64.
Record timespec := { ts_sec : Z; ts_nsec : Z }.
Definition ts_ok (t : timespec) : Prop := - 2^63 <= ts_sec t < 2^63 /\ 0 <= ts_nsec t < 1000000000.
Definition ts_fields (t : timespec) : list fld := [I 8 (s64 (ts_sec t)); I 4 (ts_nsec t)].

Record disk_key := { k_objectid : Z; k_type : Z; k_offset : Z }.
Definition key_fields (k : disk_key) : list fld := [I 8 (k_objectid k); I 1 (k_type k); I 8 (k_offset k)].

(* struct btrfs_header *)
Record d_header := { h_csum : list byte; h_fsid : list byte; h_bytenr : Z; h_flags : Z;
  h_chunk_tree_uuid : list byte; h_generation : Z; h_owner : Z; h_nritems : Z; h_level : Z }.
Definition header_fields (h : d_header) : list fld :=
  [Raw 32 (h_csum h); Raw 16 (h_fsid h); I 8 (h_bytenr h); I 8 (h_flags h);
   Raw 16 (h_chunk_tree_uuid h); I 8 (h_generation h); I 8 (h_owner h); I 4 (h_nritems h); I 1 (h_level h)].

(* struct btrfs_item *)
Record d_item := { it_key : disk_key; it_offset : Z; it_size : Z }.
Definition item_fields (i : d_item) : list fld := key_fields (it_key i) ++ [I 4 (it_offset i); I 4 (it_size i)].

(* struct btrfs_dev_extent *)
Record d_dev_extent := { de_chunk_tree : Z; de_chunk_objectid : Z; de_chunk_offset : Z; de_length : Z;
  de_chunk_tree_uuid : list byte }.
Definition dev_extent_fields (d : d_dev_extent) : list fld :=
  [I 8 (de_chunk_tree d); I 8 (de_chunk_objectid d); I 8 (de_chunk_offset d); I 8 (de_length d);
   Raw 16 (de_chunk_tree_uuid d)].

(* struct btrfs_dev_item *)
Record d_dev_item := { dv_devid : Z; dv_total_bytes : Z; dv_bytes_used : Z; dv_io_align : Z; dv_io_width : Z;
  dv_sector_size : Z; dv_type : Z; dv_generation : Z; dv_start_offset : Z; dv_dev_group : Z;
  dv_seek_speed : Z; dv_bandwidth : Z; dv_uuid : list byte; dv_fsid : list byte }.
Definition dev_item_fields (d : d_dev_item) : list fld :=
  [I 8 (dv_devid d); I 8 (dv_total_bytes d); I 8 (dv_bytes_used d); I 4 (dv_io_align d); I 4 (dv_io_width d);
   I 4 (dv_sector_size d); I 8 (dv_type d); I 8 (dv_generation d); I 8 (dv_start_offset d); I 4 (dv_dev_group d);
   I 1 (dv_seek_speed d); I 1 (dv_bandwidth d); Raw 16 (dv_uuid d); Raw 16 (dv_fsid d)].

(* struct btrfs_stripe *)
Record d_stripe := { st_devid : Z; st_offset : Z; st_dev_uuid : list byte }.
Definition stripe_fields (s : d_stripe) : list fld :=
  [I 8 (st_devid s); I 8 (st_offset s); Raw 16 (st_dev_uuid s)].

(* struct btrfs_chunk, followed by its num_stripes stripes *)
Record d_chunk := { ch_length : Z; ch_owner : Z; ch_stripe_len : Z; ch_type : Z; ch_io_align : Z;
  ch_io_width : Z; ch_sector_size : Z; ch_sub_stripes : Z; ch_stripes : list d_stripe }.
Definition chunk_head_fields (c : d_chunk) : list fld :=
  [I 8 (ch_length c); I 8 (ch_owner c); I 8 (ch_stripe_len c); I 8 (ch_type c); I 4 (ch_io_align c);
   I 4 (ch_io_width c); I 4 (ch_sector_size c); I 2 (zlen (ch_stripes c)); I 2 (ch_sub_stripes c)].
Definition chunk_fields (c : d_chunk) : list fld :=
  chunk_head_fields c ++ flat_map stripe_fields (ch_stripes c).

(* struct btrfs_inode_item *)
Record d_inode := { in_generation : Z; in_transid : Z; in_size : Z; in_nbytes : Z; in_block_group : Z;
  in_nlink : Z; in_uid : Z; in_gid : Z; in_mode : Z; in_rdev : Z; in_flags : Z; in_sequence : Z;
  in_res0 : Z; in_res1 : Z; in_res2 : Z; in_res3 : Z;
  in_atime : timespec; in_ctime : timespec; in_mtime : timespec; in_otime : timespec }.
Definition inode_fields (i : d_inode) : list fld :=
  [I 8 (in_generation i); I 8 (in_transid i); I 8 (in_size i); I 8 (in_nbytes i); I 8 (in_block_group i);
   I 4 (in_nlink i); I 4 (in_uid i); I 4 (in_gid i); I 4 (in_mode i); I 8 (in_rdev i); I 8 (in_flags i);
   I 8 (in_sequence i); I 8 (in_res0 i); I 8 (in_res1 i); I 8 (in_res2 i); I 8 (in_res3 i)]
  ++ ts_fields (in_atime i) ++ ts_fields (in_ctime i) ++ ts_fields (in_mtime i) ++ ts_fields (in_otime i).
Definition inode_times_ok (i : d_inode) : Prop :=
  ts_ok (in_atime i) /\ ts_ok (in_ctime i) /\ ts_ok (in_mtime i) /\ ts_ok (in_otime i).

(* struct btrfs_inode_ref, followed by the name *)
Record d_inode_ref := { ir_index : Z; ir_name : list byte }.
Definition inode_ref_fields (r : d_inode_ref) : list fld :=
  [I 8 (ir_index r); I 2 (zlen (ir_name r)); Raw (length (ir_name r)) (ir_name r)].

(* struct btrfs_dir_item, followed by the name and (xattrs) the data *)
Record d_dir_item := { di_location : disk_key; di_transid : Z; di_type : Z; di_name : list byte; di_data : list byte }.
Definition dir_item_fields (d : d_dir_item) : list fld :=
  key_fields (di_location d) ++
  [I 8 (di_transid d); I 2 (zlen (di_data d)); I 2 (zlen (di_name d)); I 1 (di_type d);
   Raw (length (di_name d)) (di_name d); Raw (length (di_data d)) (di_data d)].

(* struct btrfs_block_group_item *)
Record d_block_group := { bg_used : Z; bg_chunk_objectid : Z; bg_flags : Z }.
Definition block_group_fields (b : d_block_group) : list fld :=
  [I 8 (bg_used b); I 8 (bg_chunk_objectid b); I 8 (bg_flags b)].

(* struct btrfs_file_extent_item: common part; then either inline data or
   the location of the extent *)
Record d_fe_head := { fe_generation : Z; fe_ram_bytes : Z; fe_compression : Z; fe_encryption : Z;
  fe_other_encoding : Z; fe_type : Z }.
Definition fe_head_fields (e : d_fe_head) : list fld :=
  [I 8 (fe_generation e); I 8 (fe_ram_bytes e); I 1 (fe_compression e); I 1 (fe_encryption e);
   I 2 (fe_other_encoding e); I 1 (fe_type e)].
Record d_fe_reg := { fr_head : d_fe_head; fr_disk_bytenr : Z; fr_disk_num_bytes : Z; fr_offset : Z; fr_num_bytes : Z }.
Definition fe_reg_fields (e : d_fe_reg) : list fld :=
  fe_head_fields (fr_head e) ++
  [I 8 (fr_disk_bytenr e); I 8 (fr_disk_num_bytes e); I 8 (fr_offset e); I 8 (fr_num_bytes e)].
Record d_fe_inline := { fi_head : d_fe_head; fi_data : list byte }.
Definition fe_inline_fields (e : d_fe_inline) : list fld :=
  fe_head_fields (fi_head e) ++ [Raw (length (fi_data e)) (fi_data e)].

(* struct btrfs_root_item *)
Record d_root := { ro_inode : d_inode; ro_generation : Z; ro_root_dirid : Z; ro_bytenr : Z; ro_byte_limit : Z;
  ro_bytes_used : Z; ro_last_snapshot : Z; ro_flags : Z; ro_refs : Z; ro_drop_progress : disk_key;
  ro_drop_level : Z; ro_level : Z; ro_generation_v2 : Z; ro_uuid : list byte; ro_parent_uuid : list byte;
  ro_received_uuid : list byte; ro_ctransid : Z; ro_otransid : Z; ro_stransid : Z; ro_rtransid : Z;
  ro_ctime : timespec; ro_otime : timespec; ro_stime : timespec; ro_rtime : timespec;
  ro_res0 : Z; ro_res1 : Z; ro_res2 : Z; ro_res3 : Z; ro_res4 : Z; ro_res5 : Z; ro_res6 : Z; ro_res7 : Z }.
Definition root_fields (r : d_root) : list fld :=
  inode_fields (ro_inode r) ++
  [I 8 (ro_generation r); I 8 (ro_root_dirid r); I 8 (ro_bytenr r); I 8 (ro_byte_limit r);
   I 8 (ro_bytes_used r); I 8 (ro_last_snapshot r); I 8 (ro_flags r); I 4 (ro_refs r)] ++
  key_fields (ro_drop_progress r) ++
  [I 1 (ro_drop_level r); I 1 (ro_level r); I 8 (ro_generation_v2 r);
   Raw 16 (ro_uuid r); Raw 16 (ro_parent_uuid r); Raw 16 (ro_received_uuid r);
   I 8 (ro_ctransid r); I 8 (ro_otransid r); I 8 (ro_stransid r); I 8 (ro_rtransid r)] ++
  ts_fields (ro_ctime r) ++ ts_fields (ro_otime r) ++ ts_fields (ro_stime r) ++ ts_fields (ro_rtime r) ++
  [I 8 (ro_res0 r); I 8 (ro_res1 r); I 8 (ro_res2 r); I 8 (ro_res3 r);
   I 8 (ro_res4 r); I 8 (ro_res5 r); I 8 (ro_res6 r); I 8 (ro_res7 r)].
Definition root_times_ok (r : d_root) : Prop :=
  ts_ok (ro_ctime r) /\ ts_ok (ro_otime r) /\ ts_ok (ro_stime r) /\ ts_ok (ro_rtime r).

(* struct btrfs_root_ref, followed by the name *)
Record d_root_ref := { rr_dirid : Z; rr_sequence : Z; rr_name : list byte }.
Definition root_ref_fields (r : d_root_ref) : list fld :=
  [I 8 (rr_dirid r); I 8 (rr_sequence r); I 2 (zlen (rr_name r)); Raw (length (rr_name r)) (rr_name r)].

(* struct btrfs_extent_item *)
Record d_extent := { ex_refs : Z; ex_generation : Z; ex_flags : Z }.
Definition extent_fields (e : d_extent) : list fld :=
  [I 8 (ex_refs e); I 8 (ex_generation e); I 8 (ex_flags e)].

(** ** A leaf block as btrfs writes it: header, item headers in order, free
    space, and the item data growing downwards from the end of the block (the
    first item's data is last).  Item offsets are relative to the end of the
    101 byte header. *)
Record leaf_entry := { le_key : disk_key; le_data : list byte }.
Fixpoint leaf_heads (off : Z) (es : list leaf_entry) : list fld :=
  match es with
  | [] => []
  | e :: r =>
      let o := off - zlen (le_data e) in
      item_fields {| it_key := le_key e; it_offset := o; it_size := zlen (le_data e) |} ++ leaf_heads o r
  end.
Definition leaf_block (h : d_header) (bs : Z) (es : list leaf_entry) (gap : list byte) : list byte :=
  ser (header_fields h) ++ ser (leaf_heads (bs - 101) es) ++ gap ++ concat (rev (map le_data es)).
(** the block is well formed: values fit, the count is right, the size is [bs] *)
Definition leaf_ok (h : d_header) (bs : Z) (es : list leaf_entry) (gap : list byte) : Prop :=
  fits (header_fields h) /\ h_nritems h = zlen es /\ fits (leaf_heads (bs - 101) es) /\
  zlen (leaf_block h bs es gap) = bs /\ bs < 2^32.
(** the header of item [i] as stored *)
Definition entry_item (bs : Z) (es : list leaf_entry) (i : nat) (e : leaf_entry) : d_item :=
  {| it_key := le_key e;
     it_offset := bs - 101 - zlen (concat (map le_data (firstn (S i) es)));
     it_size := zlen (le_data e) |}.

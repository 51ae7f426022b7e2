(** Property C06, sizes: the exported lengths are those of the packed btrfs structures. *)
From Verif Require Import Go Layout SpecLayout.
Lemma len_le_encode n v : zlen (le_encode n v) = Z.of_nat n.
Proof. unfold zlen. f_equal. revert v. induction n as [|n IH]; intros v; [reflexivity|]. cbn [le_encode length]. f_equal. apply IH. Qed.
Lemma len_ser fs : fits fs -> zlen (ser fs) = sumw fs.
Proof.
  induction 1 as [|f fs Hf _ IH]; [reflexivity|]. unfold ser in *. cbn [flat_map sumw]. unfold zlen in *. rewrite app_length, Nat2Z.inj_add, IH. f_equal.
  destruct f as [w v|w bs]; cbn [ser1 fw]; [apply len_le_encode|]. cbn [fit1] in Hf. rewrite Hf. reflexivity.
Qed.
(** Every packed structure is exactly as long as the length the package exports for it. *)
Theorem C06_sizes :
  (forall k, fits (key_fields k) -> zlen (ser (key_fields k)) = KeyLen) /\
  (forall h, fits (header_fields h) -> zlen (ser (header_fields h)) = HeaderLen) /\
  (forall i, fits (item_fields i) -> zlen (ser (item_fields i)) = ItemLen) /\
  (forall d, fits (dev_extent_fields d) -> zlen (ser (dev_extent_fields d)) = DevExtentLen) /\
  (forall d, fits (dev_item_fields d) -> zlen (ser (dev_item_fields d)) = DevItemLen) /\
  (forall i, fits (inode_fields i) -> zlen (ser (inode_fields i)) = InodeItemLen) /\
  (forall r, fits (root_fields r) -> zlen (ser (root_fields r)) = RootItemLen) /\
  DefaultBlockSize = 16 * 1024 /\ X86RegularPageSize = 4 * 1024 /\
  SuperInfoOffset = 64 * 1024 /\ SuperInfoOffset2 = 64 * 1024^2 /\ SuperInfoOffset3 = 256 * 1024^3 /\ SuperInfoOffset4 = 1024^5.
Proof. repeat split; intros; rewrite len_ser by assumption; reflexivity. Qed.
Print Assumptions C06_sizes.
(** Non-vacuity: a device item that fits is 98 bytes long, a root item 439. *)
Definition zeros (n : nat) : list byte := repeat x00 n.
Example C06_sizes_ex :
  let d := {| dv_devid := 1; dv_total_bytes := 2^40; dv_bytes_used := 2^30; dv_io_align := 4096; dv_io_width := 4096; dv_sector_size := 4096; dv_type := 0; dv_generation := 7; dv_start_offset := 0;
    dv_dev_group := 0; dv_seek_speed := 0; dv_bandwidth := 0; dv_uuid := zeros 16; dv_fsid := zeros 16 |} in
  fits (dev_item_fields d) /\ zlen (ser (dev_item_fields d)) = 98.
Proof. cbv zeta. split; [|vm_compute; reflexivity]. unfold fits, dev_item_fields. repeat (constructor; [first [reflexivity|split; [vm_compute; discriminate|vm_compute; reflexivity]]|]). constructor. Qed.

(** Examples and counterexamples for C45-C52, C63: recover runs over concrete
    indexes, devices and file trees, computed by the kernel. *)
From Verif Require Import Go GoProofs Layout LayoutProofs SpecLayout StructProofs PropsLayout KeyFmt KeyProofs Bolt Store StoreProofs SpecStore RangeProofs PropsStore PropsRange MkIndex.
From Verif Require Import PropsPath Fs Recover RecoverProofs SpecFs SpecContent PathProofs PropsRecoverPaths FsProofs PropsRecoverSafe PropsRecoverDfs PropsRecoverFile PropsRecoverErr PropsRecoverLink.
From Coq Require Import ZifyBool ZifyNat ZifyN.
Ltac Zify.zify_post_hook ::= Z.div_mod_to_equations.

(** ** building blocks *)
Definition ts0 : timespec := {| ts_sec := 0; ts_nsec := 0 |}.
Definition mkino (size : Z) : d_inode := {| in_generation := 5; in_transid := 6; in_size := size; in_nbytes := size;
  in_block_group := 0; in_nlink := 1; in_uid := 0; in_gid := 0; in_mode := 33188; in_rdev := 0; in_flags := 0; in_sequence := 0;
  in_res0 := 0; in_res1 := 0; in_res2 := 0; in_res3 := 0; in_atime := ts0; in_ctime := ts0; in_mtime := ts0; in_otime := ts0 |}.
Definition mkhead (ram ty : Z) : d_fe_head := {| fe_generation := 7; fe_ram_bytes := ram; fe_compression := 0; fe_encryption := 0; fe_other_encoding := 0; fe_type := ty |}.
Definition item : Type := Z * Key * Z * list byte.
Definition irec (o ino size : Z) : item := (o, mkKey ino 1 0, 7, itemv (ser (inode_fields (mkino size)))).
Definition inl (o ino off : Z) (d : list byte) : item :=
  (o, mkKey ino 108 off, 7, itemv (ser (fe_inline_fields {| fi_head := mkhead (zlen d) 0; fi_data := d |}))).
Definition reg (o ino off nr eo n : Z) : item :=
  (o, mkKey ino 108 off, 7, itemv (ser (fe_reg_fields {| fr_head := mkhead n 1; fr_disk_bytenr := nr; fr_disk_num_bytes := n; fr_offset := eo; fr_num_bytes := n |}))).
(** dir item with an arbitrary key offset, as in damaged metadata *)
Definition dir_at (o dir off : Z) (di : d_dir_item) : item := (o, mkKey dir 84 off, 7, itemv (ser (dir_item_fields di))).
Definition E0 : env := mkEnv [] (fun _ _ => FNone).
Definition maxg : Z := 2^64 - 1.
Definition ixq (l : list item) : queries := ix_queries 50 (mkb l) maxg.
Definition w0 (F : fs) : world := mkWorld F 0 [].
Definition bz_s (l : list Z) : list byte := map zb l.
(** "d", "/d", ... *)
Definition s_d : comp := [x64]. Definition s_e : comp := [x65]. Definition s_f : comp := [x66]. Definition s_l : comp := [x6c]. Definition s_x : comp := [x78].
Definition abs1 (c : comp) : list byte := slash :: c.
Definition abs2 (c d : comp) : list byte := slash :: c ++ slash :: d.

(** ** a small tree recovered completely: /a (directory) with file g (inline), file f with
    a disk extent, a hole and an inline extent, a symbolic link l *)
Definition ex_items : list item :=
  [dir_at 5 256 100 (mkdi 257 1 2 [x61]); dir_at 5 256 200 (mkdi 258 1 1 s_f); dir_at 5 256 300 (mkdi 259 1 7 s_l); dir_at 5 257 100 (mkdi 260 1 1 [x67]);
   irec 5 256 0; irec 5 257 0; irec 5 258 12; irec 5 259 3; irec 5 260 2;
   reg 5 258 0 1002 1 4; reg 5 258 4 0 0 3; inl 5 258 7 (bz_s [49; 50; 51]); inl 5 259 0 (bz_s [97; 47; 103]); inl 5 260 0 (bz_s [120; 121]);
   (3, mkKey 256 228 1000, 7, itemv (ser (chunk_fields (ch28 20))))].
Definition ex_dev : list byte := bz_s [0;0;0;0;0;0;0;0;0;0;0;0;0;0;0;0;0;0;0;0;0;0;0;65;66;67;68;69;70;71].
Definition ex_run := doRecoverFiles 10 10 E0 (file_reader ex_dev) (ixq ex_items) false (abs1 s_d) (w0 []).
Definition s_a : comp := [x61]. Definition s_g : comp := [x67]. Definition s_o : comp := [x6f]. Definition s_y : comp := [x79].
(** every directory, file and link is there, with content, and nothing else *)
Example ex_run_result :
  snd ex_run = Ret (true, [(5, 257); (5, 256)]) /\
  look (w_fs (fst ex_run)) [s_d] = Some NDir /\ look (w_fs (fst ex_run)) [s_d; s_a] = Some NDir /\
  look (w_fs (fst ex_run)) [s_d; s_a; s_g] = Some (NFile (bz_s [120; 121])) /\
  look (w_fs (fst ex_run)) [s_d; s_f] = Some (NFile (bz_s [65; 66; 67; 68; 0; 0; 0; 49; 50; 51; 0; 0])) /\
  look (w_fs (fst ex_run)) [s_d; s_l] = Some (NLink (bz_s [97; 47; 103])) /\ length (w_fs (fst ex_run)) = 5%nat.
Proof. vm_compute. repeat split. Qed.

(** ** the hypotheses of the theorems hold for it *)
Lemma file_reader_good D : good_device D (file_reader D).
Proof.
  assert (HL : forall n off, 0 <= n -> 0 <= off -> zlen (firstn (Z.to_nat n) (skipn (Z.to_nat off) D)) = Z.min n (Z.max 0 (zlen D - off))).
  { intros n off Hn Ho. unfold zlen. rewrite firstn_length, skipn_length. lia. }
  split.
  - intros n off. unfold file_reader. destruct (off <? 0) eqn:EO; [split; [reflexivity|lia]|]. split; [lia|]. intros Ho Hn. specialize (HL n off Hn Ho).
    split; [lia|]. split.
    + rewrite firstn_length. set (m := Z.to_nat n). set (x := skipn (Z.to_nat off) D). destruct (Nat.le_ge_cases m (length x)) as [HC|HC].
      * rewrite Nat.min_l by exact HC. reflexivity.
      * rewrite Nat.min_r by exact HC. rewrite firstn_all. apply firstn_all2. exact HC.
    + destruct (zlen _ <? n) eqn:EQ; [discriminate|]. lia.
  - intros n off Ho Hn Hf. unfold file_reader. replace (off <? 0) with false by lia. cbn [snd]. specialize (HL n off Hn Ho). replace (zlen _ <? n) with false by lia. reflexivity.
Qed.
Definition q1 : queries := ixq ex_items.
(** C48: file f of [ex_items]: four bytes on disk, a hole of three, three inline bytes, size 12 *)
Example C48_ex cfuel : 2^64 < Z.of_nat cfuel -> exists w' c,
  recoverFile cfuel E0 (file_reader ex_dev) q1 false 5 258 (abs1 s_f) (w0 []) = (w', Ret true) /\
  look (w_fs w') [s_f] = Some (NFile c) /\ zlen c = 12 /\
  (forall i, 0 <= i < 12 -> byte_at c i = file_byte ex_dev [Disk 0 4 23; Hole 4 3; Inline 7 (bz_s [49; 50; 51])] i).
Proof.
  intros HF.
  destruct (C48_recovers cfuel E0 (file_reader ex_dev) ex_dev q1 false 5 258 (abs1 s_f) (w0 []) [Disk 0 4 23; Hole 4 3; Inline 7 (bz_s [49; 50; 51])]
     (sl (ser (inode_fields (mkino 12)))) 12 [s_f]) as (w' & c & H1 & H2 & H3 & H4 & H5).
  - intros n k; reflexivity.
  - apply file_reader_good.
  - vm_compute; reflexivity.
  - exact HF.
  - vm_compute; reflexivity.
  - left; vm_compute; reflexivity.
  - set (l := st_items (q_extents q1 5 258)). assert (HE : exists k1 e1 k2 e2 k3 e3, l = [(k1, e1); (k2, e2); (k3, e3)] /\
      is_extent q1 (k1, e1) (Disk 0 4 23) /\ is_extent q1 (k2, e2) (Hole 4 3) /\ is_extent q1 (k3, e3) (Inline 7 (bz_s [49; 50; 51]))).
    { vm_compute in l. subst l. do 6 eexists. split; [reflexivity|]. split; [|split].
      - right; right. exists 1, 4, 1002, 1, 22, 1. repeat split; try (vm_compute; reflexivity); discriminate.
      - right; left. exists 1, 3. repeat split; try (vm_compute; reflexivity). discriminate.
      - left. eexists. repeat split; vm_compute; reflexivity. }
    destruct HE as (k1 & e1 & k2 & e2 & k3 & e3 & -> & A & B & C). apply Forall2_cons; [exact A|apply Forall2_cons; [exact B|apply Forall2_cons; [exact C|apply Forall2_nil]]].
  - repeat constructor; vm_compute; (reflexivity || discriminate).
  - vm_compute; reflexivity.
  - vm_compute; reflexivity.
  - vm_compute; reflexivity.
  - lia.
  - exists w', c. auto.
Qed.
(** C52: link l *)
Example C52_ex : exists w', recoverSymlink E0 (file_reader ex_dev) q1 true 5 259 (abs1 s_l) (w0 [([s_l], NFile [x00])]) = (w', Ret true) /\ look (w_fs w') [s_l] = Some (NLink (bz_s [97; 47; 103])).
Proof.
  destruct (C52_recovers E0 (file_reader ex_dev) ex_dev q1 true 5 259 (abs1 s_l) (w0 [([s_l], NFile [x00])]) [s_l]
     (sl (ser (fe_inline_fields {| fi_head := mkhead 3 0; fi_data := bz_s [97; 47; 103] |}))) (bz_s [97; 47; 103])) as (w' & H1 & H2 & _).
  - intros n k; reflexivity.
  - apply file_reader_good.
  - vm_compute; reflexivity.
  - vm_compute; reflexivity.
  - vm_compute; reflexivity.
  - left. split; vm_compute; reflexivity.
  - vm_compute; reflexivity.
  - right. split; [reflexivity|]. split; [exists [x00]; left; vm_compute; reflexivity|vm_compute; reflexivity].
  - exists w'. auto.
Qed.

(** ** counterexamples *)
Ltac vms := repeat (match goal with |- _ /\ _ => split; [vm_compute; reflexivity|] end); vm_compute; reflexivity.
Definition b_abc : list byte := bz_s [97; 98; 99].
(** a device nothing is read from *)
Definition nodev : readerAt := file_reader [].
(** two items of the top directory with name x: a symbolic link and something else *)
Definition clash (target : list byte) (rest : list item) : list item :=
  [dir_at 5 256 100 (mkdi 257 1 7 s_x); irec 5 257 4; inl 5 257 0 target] ++ rest.
Definition file_x : list item := [dir_at 5 256 200 (mkdi 258 1 1 s_x); irec 5 258 3; inl 5 258 0 b_abc].
(** C46 is false: metadata with a symbolic link x to /o/f and a file x makes recover create
    /o/f, outside of the destination /d, and report nothing; without --clobber. *)
Theorem C46_refuted : exists l F w' v, resolve F [] true (abs1 s_d) = Some [s_d] /\
  look F [s_o; s_f] = None /\
  doRecoverFiles 10 10 E0 nodev (ixq l) false (abs1 s_d) (w0 F) = (w', Ret (true, v)) /\
  look (w_fs w') [s_o; s_f] = Some (NFile b_abc) /\ (forall k p, ~ In (EvWarn k p) (w_log w')).
Proof.
  exists (clash (abs2 s_o s_f) file_x), [([s_d], NDir); ([s_o], NDir)]. eexists. eexists. split; [vm_compute; reflexivity|]. split; [vm_compute; reflexivity|]. split; [vm_compute; reflexivity|]. split; [vm_compute; reflexivity|].
  intros k p. cbn [w_log In]. intros H. repeat (destruct H as [H|H]; [discriminate|]). exact H.
Qed.
Print Assumptions C46_refuted.
(** the same with a directory x whose file f ends up in /o, with a link named like the
    directory of a subvolume ("subvol_257"), and with a destination given as "l/../e"
    where l is a symbolic link to /d/d: MkdirAll makes /d/e but the files go to /e *)
Definition dir_x : list item := [dir_at 5 256 200 (mkdi 258 1 2 s_x); dir_at 5 258 100 (mkdi 259 1 1 s_f); irec 5 259 3; inl 5 259 0 b_abc].
Theorem C46_directory_refuted : exists l F w' v, resolve F [] true (abs1 s_d) = Some [s_d] /\ look F [s_o; s_f] = None /\
  doRecoverFiles 10 10 E0 nodev (ixq l) false (abs1 s_d) (w0 F) = (w', Ret (true, v)) /\ look (w_fs w') [s_o; s_f] = Some (NFile b_abc).
Proof. exists (clash (abs1 s_o) dir_x), [([s_d], NDir); ([s_o], NDir)]. eexists. eexists. vms. Qed.
Definition subvol257 : list item :=
  [(1, mkKey 257 132 0, 7, itemv []); (1, mkKey 256 132 0, 7, itemv []); dir_at 5 256 100 (mkdi 258 1 7 (subvol_prefix ++ dec 257)); irec 5 258 2; inl 5 258 0 (abs1 s_o);
   dir_at 257 256 100 (mkdi 259 1 1 s_f); irec 257 259 3; inl 257 259 0 b_abc].
Theorem C46_subvolume_refuted : exists l F w' v, resolve F [] true (abs1 s_d) = Some [s_d] /\ look F [s_o; s_f] = None /\
  (forall o d, NoDup (map (fun e => DirItem_Name (snd e)) (st_items (q_dirItems (ixq l) o d))) \/ (o, d) <> (5, 256) /\ (o, d) <> (257, 256)) /\
  doRecoverFiles 10 10 E0 nodev (ixq l) false (abs1 s_d) (w0 F) = (w', Ret (true, v)) /\ look (w_fs w') [s_o; s_f] = Some (NFile b_abc).
Proof.
  exists subvol257, [([s_d], NDir); ([s_o], NDir)]. eexists. eexists. split; [vm_compute; reflexivity|]. split; [vm_compute; reflexivity|]. split; [|split; vm_compute; reflexivity].
  intros o d. destruct (Z.eq_dec d 256) as [->|Hd]; [|right; split; congruence]. destruct (Z.eq_dec o 5) as [->|]; [left|destruct (Z.eq_dec o 257) as [->|]; [left|right; split; congruence]];
    vm_compute; repeat constructor; intros [].
Qed.
(** "/l/../e" *)
Definition lexical_dest : list byte := abs1 s_l ++ slash :: dot :: dot :: abs1 s_e.
Theorem C46_lexical_refuted : exists l F w' v,
  look F [s_l] = Some (NLink (abs2 s_d s_d)) /\
  doRecoverFiles 10 10 E0 nodev (ixq l) false lexical_dest (w0 F) = (w', Ret (true, v)) /\
  resolve (w_fs w') [] true lexical_dest = Some [s_d; s_e] /\ look (w_fs w') [s_d; s_e] = Some NDir /\
  look F [s_e; s_x] = None /\ look (w_fs w') [s_e; s_x] = Some (NFile b_abc).
Proof.
  exists file_x, [([s_l], NLink (abs2 s_d s_d)); ([s_d], NDir); ([s_d; s_d], NDir); ([s_e], NDir)]. eexists. eexists. vms.
Qed.
Print Assumptions C46_directory_refuted. Print Assumptions C46_subvolume_refuted. Print Assumptions C46_lexical_refuted.

(** C47 needs Stat to work: a failing Stat of an existing file is taken for "no such
    file", and the file is truncated *)
Definition E_fault (n : nat) (f : fault) : env := mkEnv [] (fun m _ => if Nat.eqb m n then f else FNone).
Theorem C47_stat_fault_refuted : exists l F n k w' v, look F [s_d; s_x] = Some (NFile [x00]) /\
  doRecoverFiles 10 10 (E_fault n (FErr k)) nodev (ixq l) false (abs1 s_d) (w0 F) = (w', Ret (true, v)) /\
  look (w_fs w') [s_d; s_x] = Some (NFile b_abc).
Proof. exists file_x, [([s_d], NDir); ([s_d; s_x], NFile [x00])], 2%nat, 0%nat. eexists. eexists. vms. Qed.
(** an existing file is kept, the rest of the tree is recovered *)
Example C47_ex : let r := doRecoverFiles 10 10 E0 (file_reader ex_dev) q1 false (abs1 s_d) (w0 [([s_d], NDir); ([s_d; s_f], NFile [x00])]) in
  snd r = Ret (true, [(5, 257); (5, 256)]) /\ look (w_fs (fst r)) [s_d; s_f] = Some (NFile [x00]) /\ look (w_fs (fst r)) [s_d; s_a; s_g] = Some (NFile (bz_s [120; 121])).
Proof. cbv zeta. vms. Qed.

(** C49 is false: a device read that fails with an error other than io.EOF ends the
    copying of the extent and nothing is reported; the file is zero-filled *)
Definition reg_x : list item := [dir_at 5 256 200 (mkdi 258 1 1 s_x); irec 5 258 4; reg 5 258 0 1002 1 4; (3, mkKey 256 228 1000, 7, itemv (ser (chunk_fields (ch28 20))))].
Theorem C49_read_error_refuted : exists l w' v off n, let dev : readerAt := fun _ _ => ([], Some EOther) in
  doRecoverFiles 10 10 E0 dev (ixq l) false (abs1 s_d) (w0 []) = (w', Ret (true, v)) /\
  In (EvRead off n 0 (Some EOther)) (w_log w') /\ (forall k p, ~ In (EvWarn k p) (w_log w')) /\ look (w_fs w') [s_d; s_x] = Some (NFile (zeros 4)).
Proof.
  exists reg_x. eexists. eexists. exists 23, 4. cbv zeta. split; [vm_compute; reflexivity|]. cbn [w_log]. split; [cbn [In]; tauto|]. split; [|vm_compute; reflexivity].
  intros k p H. repeat (destruct H as [H|H]; [discriminate|]). exact H.
Qed.
(** and a failing truncate of a file without extents is not reported *)
Definition empty_x : list item := [dir_at 5 256 200 (mkdi 258 1 1 s_x); irec 5 258 4].
Theorem C49_truncate_refuted : exists l n k w' v,
  doRecoverFiles 10 10 (E_fault n (FErr k)) nodev (ixq l) false (abs1 s_d) (w0 [([s_d], NDir)]) = (w', Ret (true, v)) /\
  In (EvOp OTrunc (abs2 s_d s_x) false) (w_log w') /\ (forall k p, ~ In (EvWarn k p) (w_log w')) /\ look (w_fs w') [s_d; s_x] = Some (NFile []).
Proof.
  exists empty_x, 4%nat, 0%nat. eexists. eexists. split; [vm_compute; reflexivity|]. cbn [w_log]. split; [cbn [In]; tauto|]. split; [|vm_compute; reflexivity].
  intros k p H. repeat (destruct H as [H|H]; [discriminate|]). exact H.
Qed.
Print Assumptions C47_stat_fault_refuted. Print Assumptions C49_read_error_refuted. Print Assumptions C49_truncate_refuted.
(** a write that fails half-way is reported *)
Example C49_ex : exists w', recoverFile 10 (E_fault 2 (FErr 1)) nodev (ixq file_x) false 5 258 (abs1 s_x) (w0 []) = (w', Ret false) /\
  w_log w' = [EvOp OWrite (abs1 s_x) false; EvOp OOpen (abs1 s_x) true; EvOp OStat (abs1 s_x) false] /\ look (w_fs w') [s_x] = Some (NFile [x61]).
Proof. eexists. vms. Qed.

(** C50 is false: a directory x whose name is taken by a file is not read, and neither
    is it when another entry y leads to it *)
Theorem C50_refuted : exists l w' v, reachable (ixq l) (5, 258) /\
  doRecoverFiles 10 10 E0 nodev (ixq l) false (abs1 s_d) (w0 []) = (w', Ret (true, v)) /\ listed (w_log w') = [(5, 256)] /\ w_fs w' = [([s_d; s_x], NFile b_abc); ([s_d], NDir)].
Proof.
  exists [dir_at 5 256 100 (mkdi 257 1 1 s_x); irec 5 257 3; inl 5 257 0 b_abc; dir_at 5 256 200 (mkdi 258 1 2 s_x); dir_at 5 256 300 (mkdi 258 1 2 s_y); dir_at 5 258 100 (mkdi 259 1 1 s_f)].
  eexists. eexists. split; [|split; [vm_compute; reflexivity|split; vm_compute; reflexivity]].
  eapply (reach_edge _ (5, 256)); [apply reach_start; left; reflexivity|]. unfold edge. cbn [fst snd].
  match goal with |- context [st_items ?s] => set (l := st_items s) end. vm_compute in l. subst l. eexists. split; [right; left; reflexivity|].
  do 3 eexists. split; [vm_compute; reflexivity|]. split; [vm_compute; reflexivity|]. split; [vm_compute; reflexivity|]. split; [vm_compute; reflexivity|].
  right. split; [discriminate|]. split; reflexivity.
Qed.
(** a cycle: directory a contains itself as b; every directory is read once *)
Example C50_ex : let r := doRecoverFiles 10 10 E0 nodev (ixq [dir_at 5 256 100 (mkdi 257 1 2 s_a); dir_at 5 257 100 (mkdi 257 1 2 s_x); dir_at 5 257 200 (mkdi 256 1 2 s_y)]) false (abs1 s_d) (w0 []) in
  snd r = Ret (true, [(5, 257); (5, 256)]) /\ listed (w_log (fst r)) = [(5, 257); (5, 256)].
Proof. split; vm_compute; reflexivity. Qed.

(** C51 is false without --clobber: killed while writing, recover leaves an incomplete
    file, which the next run takes for complete *)
Theorem C51_rerun_refuted : exists l n w1 w' v,
  doRecoverFiles 10 10 (E_fault n (FCrash 1)) nodev (ixq l) false (abs1 s_d) (w0 []) = (w1, OCrash) /\
  doRecoverFiles 10 10 E0 nodev (ixq l) false (abs1 s_d) (w0 (w_fs w1)) = (w', Ret (true, v)) /\ look (w_fs w') [s_d; s_x] = Some (NFile [x61]).
Proof. exists file_x, 5%nat. eexists. eexists. eexists. vms. Qed.
(** with --clobber it is complete *)
Example C51_ex cfuel : 2^64 < Z.of_nat cfuel -> exists w1 w', recoverFile 10 (E_fault 2 (FCrash 1)) nodev (ixq file_x) false 5 258 (abs1 s_x) (w0 []) = (w1, OCrash) /\
  look (w_fs w1) [s_x] = Some (NFile [x61]) /\ recoverFile cfuel E0 nodev (ixq file_x) true 5 258 (abs1 s_x) w1 = (w', Ret true) /\ exists c, look (w_fs w') [s_x] = Some (NFile c) /\ zlen c = 3.
Proof.
  intros HF. set (r := recoverFile 10 (E_fault 2 (FCrash 1)) nodev (ixq file_x) false 5 258 (abs1 s_x) (w0 [])). exists (fst r).
  destruct (C51_rerun_clobber_partial cfuel 10 E0 (E_fault 2 (FCrash 1)) nodev nodev [] (ixq file_x) false 5 258 (abs1 s_x) (w0 []) (fst r) OCrash [Inline 0 b_abc] (sl (ser (inode_fields (mkino 3)))) 3 [s_x])
    as (w' & c & H1 & H2 & H3 & _).
  - vm_compute; reflexivity.
  - reflexivity.
  - vm_compute; reflexivity.
  - left; vm_compute; reflexivity.
  - intros n k; reflexivity.
  - apply file_reader_good.
  - vm_compute; reflexivity.
  - exact HF.
  - set (l := st_items _). vm_compute in l. subst l. apply Forall2_cons; [|apply Forall2_nil]. left. eexists. repeat split; vm_compute; reflexivity.
  - repeat constructor; vm_compute; reflexivity.
  - vm_compute; reflexivity.
  - vm_compute; reflexivity.
  - vm_compute; reflexivity.
  - lia.
  - exists w'. split; [vm_compute; reflexivity|]. split; [vm_compute; reflexivity|]. split; [exact H1|exists c; auto].
Qed.
(** C63 is false for recover --clobber: a symbolic link x to the image and a file x in the
    metadata make recover overwrite the image *)
Theorem C63_refuted : exists l F image content w' v, look F image = Some (NFile content) /\ ~ (exists r, image = s_d :: r) /\
  doRecoverFiles 10 10 E0 (file_reader content) (ixq l) true (abs1 s_d) (w0 F) = (w', Ret (true, v)) /\ look (w_fs w') image = Some (NFile b_abc).
Proof.
  exists (clash (abs1 s_l) file_x), [([s_l], NFile ex_dev)], [s_l], ex_dev. eexists. eexists. split; [vm_compute; reflexivity|]. split; [intros [r Hr]; discriminate|].
  split; vm_compute; reflexivity.
Qed.
Print Assumptions C50_refuted. Print Assumptions C51_rerun_refuted. Print Assumptions C63_refuted.
Example C63_ex : let r := doRecoverFiles 10 10 E0 (file_reader ex_dev) q1 false (abs1 s_d) (w0 [([s_d], NDir); ([s_d; s_f], NFile ex_dev)]) in
  snd r = Ret (true, [(5, 257); (5, 256)]) /\ look (w_fs (fst r)) [s_d; s_f] = Some (NFile ex_dev).
Proof. split; vm_compute; reflexivity. Qed.
(** C45: hostile names *)
Example C45_ex : exists w' v, doRecoverFiles 10 10 E0 nodev (ixq [dir_at 5 256 100 (mkdi 257 1 1 [dot; dot]); dir_at 5 256 200 (mkdi 257 1 2 (dot :: dot :: abs1 s_x)); dir_at 5 256 300 (mkdi 257 1 1 [dot; dot; dot]); inl 5 257 0 b_abc]) false (abs1 s_d) (w0 [([s_d], NDir)]) =
  (w', Ret (true, v)) /\ w_fs w' = [([s_d; [dot; dot; dot]], NFile b_abc); ([s_d], NDir)].
Proof. eexists. eexists. split; vm_compute; reflexivity. Qed.
(** C46: a tree without symbolic links *)
Definition q46 : queries := mkQueries (fun o d => if (o =? 5) && (d =? 256) then mkStream [([], sl (ser (dir_item_fields (mkdi 257 1 2 s_a)))); ([], sl (ser (dir_item_fields (mkdi 258 1 1 s_f))))] (Ok tt) else mkStream [] (Ok tt))
  (q_inode (ixq ex_items)) (q_extents (ixq ex_items)) (q_extent0 (ixq ex_items)) (q_physical (ixq ex_items)) (mkStream [] (Ok tt)).
Example C46_ex : let r := doRecoverFiles 10 10 E0 (file_reader ex_dev) q46 true (abs1 s_d) (w0 [([s_d], NDir); ([s_o], NFile [])]) in
  length (w_fs (fst r)) = 4%nat /\ forall p, ~ below [s_d] p -> look (w_fs (fst r)) p = look [([s_d], NDir); ([s_o], NFile [])] p.
Proof.
  cbv zeta. split; [vm_compute; reflexivity|]. eapply C46_nothing_outside_partial with (w := w0 [([s_d], NDir); ([s_o], NFile [])]); [| | | | | | |apply surjective_pairing].
  - intros p c HP. cbn [w_fs w0] in *. destruct p as [|c' p]; [reflexivity|]. exfalso. apply HP. cbn [look app assoc].
    destruct (cpath_dec [s_d] (c' :: p ++ [c])) as [HE|_]; [injection HE as _ HE; destruct p; discriminate|].
    destruct (cpath_dec [s_o] (c' :: p ++ [c])) as [HE|_]; [injection HE as _ HE; destruct p; discriminate|]. reflexivity.
  - vm_compute; reflexivity.
  - vm_compute; reflexivity.
  - vm_compute; reflexivity.
  - vm_compute; reflexivity.
  - intros r t HR. cbn [w_fs w0 look app assoc] in HR. destruct (cpath_dec [s_d] (s_d :: r)); [discriminate|]. destruct (cpath_dec [s_o] (s_d :: r)); discriminate.
  - intros o d e. cbn [q46 q_dirItems]. destruct ((o =? 5) && (d =? 256)); cbn [st_items In]; intros HI HT; [|exact HI]. destruct HI as [HI|[HI|[]]]; subst e; vm_compute in HT; discriminate.
Qed.

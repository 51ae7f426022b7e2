(** C70, C53: a concrete mounted volume. *)
From Verif Require Import Go GoProofs Layout LayoutProofs SpecLayout StructProofs PropsLayout KeyFmt KeyProofs Bolt Store StoreProofs SpecStore RangeProofs PropsStore PropsRange MkIndex IoUtil.
From Verif Require Import PropsPath Fs Recover SpecFs SpecContent SpecTree PropsRecoverDfs PropsRecoverFile PropsRecoverEx PropsTreeEx Rescue PropsRescueRead PropsRescueNode SpecMount PropsMount.
From Coq Require Import List Permutation ZifyBool ZifyNat ZifyN.

Definition m_items : list item :=
  [dir_at 5 256 100 (mkdi 257 1 2 s_a); dir_at 5 256 200 (mkdi 258 1 1 s_f); dir_at 5 256 300 (mkdi 259 1 7 s_l); dir_at 5 256 400 (mkdi 256 132 2 s_s); dir_at 5 257 100 (mkdi 260 1 1 s_g);
   irec 5 256 0; irec 5 257 0; irec 5 258 7; irec 5 259 3; irec 5 260 2;
   reg 5 258 0 1002 1 4; reg 5 258 4 0 0 3; inl 5 259 0 (bz_s [97; 47; 103]); inl 5 260 0 (bz_s [120; 121]);
   (3, mkKey 256 228 1000, 7, itemv (ser (chunk_fields (ch28 20)))); (1, mkKey 256 132 0, 7, itemv []);
   dir_at 256 256 100 (mkdi 259 1 1 s_x); irec 256 256 0; irec 256 259 3; inl 256 259 0 b_abc;
   (7, mkKey (2^64 - 10) 128 0, 7, itemv []); (256, mkKey 259 248 0, 7, itemv [])].
Definition qm : queries := ixq m_items.
Definition m_tree : entries :=
  [(s_a, TDir [(s_g, TFile (bz_s [120; 121]))]); (s_f, TFile (bz_s [65; 66; 67; 68; 0; 0; 0])); (s_l, TLink (bz_s [97; 47; 103])); (s_s, TDir [(s_x, TFile b_abc)])].
Lemma mx_g : Forall2 (is_extent qm) (st_items (q_extents qm 5 260)) [Inline 0 (bz_s [120; 121])].
Proof. st (st_items (q_extents qm 5 260)); apply Forall2_cons; [left; eexists; split; [vm_compute; reflexivity|split; vm_compute; reflexivity]|apply Forall2_nil]. Qed.
Lemma mx_x : Forall2 (is_extent qm) (st_items (q_extents qm 256 259)) [Inline 0 b_abc].
Proof. st (st_items (q_extents qm 256 259)); apply Forall2_cons; [left; eexists; split; [vm_compute; reflexivity|split; vm_compute; reflexivity]|apply Forall2_nil]. Qed.
Lemma mx_f : Forall2 (is_extent qm) (st_items (q_extents qm 5 258)) [Disk 0 4 23; Hole 4 3].
Proof.
  set (l := st_items (q_extents qm 5 258)). assert (HE : exists k1 e1 k2 e2, l = [(k1, e1); (k2, e2)] /\ is_extent qm (k1, e1) (Disk 0 4 23) /\ is_extent qm (k2, e2) (Hole 4 3)).
  { vm_compute in l. subst l. do 4 eexists. split; [reflexivity|]. split.
    - right; right. exists 1, 4, 1002, 1, 22, 1. repeat split; try (vm_compute; reflexivity); discriminate.
    - right; left. exists 1, 3. repeat split; try (vm_compute; reflexivity). discriminate. }
  destruct HE as (k1 & e1 & k2 & e2 & -> & A & B). apply Forall2_cons; [exact A|apply Forall2_cons; [exact B|apply Forall2_nil]].
Qed.
Ltac fsh xs H n := exists xs; eexists; split; [exact H|]; split; [repeat constructor; vm_compute; (reflexivity || discriminate)|]; split; [vm_compute; reflexivity|]; split; [vm_compute; reflexivity|]; split; [vm_compute; reflexivity|]; split; [vm_compute; reflexivity|].
Lemma msh_g : file_shows qm ex_dev 5 260 (bz_s [120; 121]).
Proof. fsh [Inline 0 (bz_s [120; 121])] mx_g 2. intros j Hj. bytes j Hj 2. Qed.
Lemma msh_x : file_shows qm ex_dev 256 259 b_abc.
Proof. fsh [Inline 0 b_abc] mx_x 3. intros j Hj. bytes j Hj 3. Qed.
Lemma msh_f : file_shows qm ex_dev 5 258 (bz_s [65; 66; 67; 68; 0; 0; 0]).
Proof. fsh [Disk 0 4 23; Hole 4 3] mx_f 7. intros j Hj. bytes j Hj 7. Qed.
Lemma msh_l : link_shows qm ex_dev 5 259 (bz_s [97; 47; 103]).
Proof. eexists. split; [vm_compute; reflexivity|]. split; [left; split; vm_compute; reflexivity|vm_compute; reflexivity]. Qed.
Lemma m_shows : dir_shows qm ex_dev 5 256 m_tree [(5, 256); (5, 257); (256, 256)].
Proof.
  apply (shows_dir qm (shown qm ex_dev) 5 256 m_tree [(5, 257); (256, 256)]); [vm_compute; reflexivity|]. st (st_items (q_dirItems qm 5 256)).
  apply (shows_sub qm (shown qm ex_dev) 5 _ _ _ s_a 5 257 [(s_g, TFile (bz_s [120; 121]))] _ [(5, 257)] [(256, 256)]).
  - vm_compute; reflexivity.
  - nd. right. split; [vm_compute; discriminate|split; vm_compute; reflexivity].
  - apply (shows_dir qm (shown qm ex_dev) 5 257 _ []); [vm_compute; reflexivity|]. st (st_items (q_dirItems qm 5 257)). eapply shows_file; [sys|vm_compute; discriminate|exact msh_g|nm|intros []|apply shows_nil].
  - nm.
  - vm_compute. intuition discriminate.
  - eapply shows_file; [sys|vm_compute; discriminate|exact msh_f|nm|vm_compute; intuition discriminate|].
    eapply shows_link; [sys|vm_compute; discriminate|exact msh_l|nm|vm_compute; intuition discriminate|].
    apply (shows_sub qm (shown qm ex_dev) 5 _ _ _ s_s 256 256 [(s_x, TFile b_abc)] _ [(256, 256)] []).
    + vm_compute; reflexivity.
    + nd. left. split; vm_compute; reflexivity.
    + apply (shows_dir qm (shown qm ex_dev) 256 256 _ []); [vm_compute; reflexivity|]. st (st_items (q_dirItems qm 256 256)). eapply shows_file; [sys|vm_compute; discriminate|exact msh_x|nm|intros []|apply shows_nil].
    + nm.
    + intros [].
    + apply shows_nil.
Qed.
Lemma m_inode o i size : q_inode qm o i = Ok (Some (sl (ser (inode_fields (mkino size)) ++ []))) -> fits (inode_fields (mkino size)) -> has_inode qm o i (mkino size).
Proof.
  intros H HF. exists (sl (ser (inode_fields (mkino size)) ++ [])). split; [exact H|]. split; [apply carries_self; exact HF|]. unfold inode_times_ok, ts_ok; cbn; lia.
Qed.
Ltac ino s := apply (m_inode _ _ s); [vm_compute; reflexivity|apply fits_b; vm_compute; reflexivity].
Ltac mit s := do 2 eexists; exists (mkino s); split; [vm_compute; reflexivity|]; split; [vm_compute; reflexivity|]; split; [ino s|].
Lemma m_mountable : mountable qm [(5, 256); (5, 257); (256, 256)].
Proof.
  intros o d H. destruct H as [H|[H|[H|[]]]]; injection H as <- <-.
  - split; [exists (mkino 0); ino 0|]. set (l := st_items (q_dirItems qm 5 256)). vm_compute in l. subst l. intros e [<-|[<-|[<-|[<-|[]]]]]; cbn [snd].
    + mit 0. left; reflexivity.
    + mit 7. right; left. split; [discriminate|]. split; [reflexivity|]. exists [Disk 0 4 23; Hole 4 3]. split; [exact mx_f|]. right. split; [discriminate|]. split; [constructor; [intros []|constructor; [intros []|constructor]]|]. exists 7. cbn. lia.
    + mit 3. right; right. split; [discriminate|]. split; [reflexivity|]. eexists. split; vm_compute; reflexivity.
    + mit 0. left; reflexivity.
  - split; [exists (mkino 0); ino 0|]. set (l := st_items (q_dirItems qm 5 257)). vm_compute in l. subst l. intros e [<-|[]]; cbn [snd].
    mit 2. right; left. split; [discriminate|]. split; [reflexivity|]. exists [Inline 0 (bz_s [120; 121])]. split; [exact mx_g|]. left. eexists. split; [reflexivity|vm_compute; discriminate].
  - split; [exists (mkino 0); ino 0|]. set (l := st_items (q_dirItems qm 256 256)). vm_compute in l. subst l. intros e [<-|[]]; cbn [snd].
    mit 3. right; left. split; [discriminate|]. split; [reflexivity|]. exists [Inline 0 b_abc]. split; [exact mx_x|]. left. eexists. split; [reflexivity|vm_compute; discriminate].
Qed.
(** file f of the volume and file x of the subvolume s can be looked up, opened and read byte by byte *)
Example C70_ex : exists T n1 n2 f1 f2, session qm T /\ In ([s_f], false, n1) T /\ In ([s_s; s_x], false, n2) T /\
  Open qm n1 = Ok (Some f1, OK) /\ Open qm n2 = Ok (Some f2, OK) /\
  (exists fuel, read_on fuel (Reader (file_reader ex_dev)) f1 [x2e] 7 [] = Some (bz_s [65; 66; 67; 68; 0; 0; 0])) /\
  (exists fuel, read_on fuel (Reader (file_reader ex_dev)) f2 [x2e] 3 [] = Some b_abc).
Proof.
  destruct (C70_mounted_tree qm ex_dev (file_reader ex_dev) m_tree _ m_shows m_mountable (file_reader_good ex_dev) ltac:(vm_compute; reflexivity)) as [HV HP].
  destruct (HP _ [s_s; s_x] (TFile b_abc) (ses_mount qm) (ex_intro _ _ (or_introl eq_refl)) eq_refl) as (T1 & n2 & S1 & I1 & M1).
  assert (HR : exists n, In ([], true, n) T1). { specialize (I1 ([], true) (or_introl eq_refl)). apply in_map_iff in I1 as ([pb n] & E & I1). cbn [fst] in E. subst pb. exists n. exact I1. }
  destruct (HP T1 [s_f] (TFile (bz_s [65; 66; 67; 68; 0; 0; 0])) S1 HR eq_refl) as (T2 & n1 & S2 & I2 & M2).
  assert (M1' : exists n2', In ([s_s; s_x], false, n2') T2). { specialize (I2 ([s_s; s_x], false)). destruct (proj1 (in_map_iff fst T2 ([s_s; s_x], false)) (I2 (in_map fst _ _ M1))) as ([pb n] & E & I3). cbn [fst] in E. subst pb. exists n. exact I3. }
  destruct M1' as (n2' & M1'). destruct (HV T2 _ _ _ S2 M1') as (t1 & E1 & _ & (_ & V1)). destruct (HV T2 _ _ _ S2 M2) as (t2 & E2 & _ & (_ & V2)). vm_compute in E1. vm_compute in E2. injection E1 as <-. injection E2 as <-. destruct V1 as (f2 & O2 & R2). destruct V2 as (f1 & O1 & R1).
  exists T2, n1, n2', f1, f2. split; [exact S2|]. split; [exact M2|]. split; [exact M1'|]. split; [exact O1|]. split; [exact O2|]. split; [apply R1|apply R2]; try discriminate; vm_compute; reflexivity.
Qed.
(** an empty file has no extents; mount cannot open it (ENOENT) although its inode and its directory entry are there; recover restores it *)
Theorem C53_empty_refuted : exists q n n' c a, file_shows q ex_dev 5 259 [] /\ Lookup q n s_y = Ok (n', Some (c, false), Some a, OK) /\ a_size a = 0 /\ n = mount_node /\ Open q c = Ok (None, ENOENT).
Proof.
  exists (ixq [dir_at 5 256 100 (mkdi 259 1 1 s_y); irec 5 259 0]), mount_node. do 3 eexists. split; [|split; [vm_compute; reflexivity|split; [vm_compute; reflexivity|split; [reflexivity|vm_compute; reflexivity]]]].
  exists []. eexists. split; [set (l := st_items _); vm_compute in l; subst l; apply Forall2_nil|].
  split; [constructor|]. split; [vm_compute; reflexivity|]. split; [vm_compute; reflexivity|]. split; [vm_compute; reflexivity|]. split; [vm_compute; reflexivity|]. intros j Hj. change (zlen []) with 0 in Hj. lia.
Qed.
(** the orphaned subvolume 257 of the volume of C67_ex is not shown: no name of the top directory leads to it *)
Theorem C70_orphans_refuted : exists kids t, volume_shows qv ex_dev kids /\ pick kids (subvol_prefix ++ dec 257) = Some t /\ exists n', Lookup qv mount_node (subvol_prefix ++ dec 257) = Ok (n', None, None, ENOENT).
Proof. exists vol_tree. eexists. split; [exact vol_shows|]. split; [vm_compute; reflexivity|]. eexists. vm_compute. reflexivity. Qed.
Print Assumptions C70_ex. Print Assumptions C53_empty_refuted. Print Assumptions C70_orphans_refuted.

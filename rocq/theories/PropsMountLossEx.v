(** C81, C82 and C70_recon_then_mount: a concrete image; then the leaf with the entries of directory a and with the file f is lost. *)
From Verif Require Import Go GoProofs Layout LayoutProofs SpecLayout LeafProofs StructProofs PropsLayout KeyFmt KeyProofs Bolt Store StoreProofs SpecStore RangeProofs PropsStore PropsRange Session PropsSession IoUtil Recon PropsRecon PropsReconEx RangeItems.
From Verif Require Import PropsPath ToString Fs Recover SpecFs SpecContent SpecTree SpecDisk DiskProofs PropsDest PropsDisk Rescue PropsRescueRead PropsRescueNode SpecMount PropsMount PropsMountDisk.
From Verif Require Import PropsRecoverEx PropsTreeEx PropsDiskEx SpecDamage PropsDamageEx SpecLoss LossProofs PropsLoss PropsLossDisk PropsLossDiskEx SpecMountLoss PropsMountLoss PropsMountLossDisk.
From Coq Require Import List Permutation ZifyBool ZifyNat ZifyN.
Ltac Zify.zify_post_hook ::= Z.div_mod_to_equations.

Definition gA : list leaf_entry := [d_ino 256 0; d_dir 256 100 257 1 2 s_a; d_dir 256 200 258 1 1 s_f; d_dir 256 300 259 1 7 s_l; d_dir 256 400 256 132 2 s_s; d_ino 257 0].
Definition gB : list leaf_entry := [d_dir 257 100 260 1 1 s_g; d_ino 258 3; d_inl 258 0 b_abc].
Definition gC : list leaf_entry := [d_ino 259 3; d_inl 259 0 (bz_s [97; 47; 103]); d_ino 260 2; d_inl 260 0 (bz_s [120; 121])].
(** the checksum tree, which comes between the main tree and the subvolumes (see C17) *)
Definition g7 : list leaf_entry := [de (2^64 - 10) 128 0 (repeat x00 4)].
Definition gS : list leaf_entry := d_ino 256 0 :: de256.
Definition n_blocks : list (list byte) := [d_leaf 5 gA; d_leaf 5 gB; d_leaf 5 gC; d_leaf 1 e1; d_leaf 7 g7; d_leaf 256 gS].
Definition n_blocks' : list (list byte) := [d_leaf 5 gA; repeat x00 4096; d_leaf 5 gC; d_leaf 1 e1; d_leaf 7 g7; d_leaf 256 gS].
Definition n_iss : list (list insertion) := [d_items 5 gA; d_items 5 gB; d_items 5 gC; d_items 1 e1; d_items 7 g7; d_items 256 gS].
Definition n_iss' : list (list insertion) := [d_items 5 gA; []; d_items 5 gC; d_items 1 e1; d_items 7 g7; d_items 256 gS].
Definition n_is : list insertion := concat n_iss.
Definition n_is' : list insertion := concat n_iss'.
Definition n_tree : entries := [(s_a, TDir [(s_g, TFile (bz_s [120; 121]))]); (s_f, TFile b_abc); (s_l, TLink (bz_s [97; 47; 103])); (s_s, TDir [(s_x, TFile b_abc)])].
Definition qn : queries := table n_is [].
Definition qn' : queries := table n_is' [].
Lemma n_lens : Forall (fun bl => zlen bl = 4096) n_blocks. Proof. repeat constructor; vm_compute; reflexivity. Qed.
Lemma n_lens' : Forall (fun bl => zlen bl = 4096) n_blocks'. Proof. repeat constructor; vm_compute; reflexivity. Qed.
Ltac contr := 
  let H := fresh in assert (H : forall o es, leaf_ok (dh o (zlen es)) 4096 es (d_gap es) -> es <> [] -> o < 2^64 - 1 -> contributes id0 4096 (d_leaf o es) (d_items o es)) by (intros; apply c_leaf; auto; reflexivity);
  repeat (apply Forall2_cons; [first [apply H; [unfold leaf_ok; repeat split; try (apply fits_b); vm_compute; reflexivity|discriminate|reflexivity]|apply c_foreign; left; vm_compute; discriminate]|]); apply Forall2_nil.
Lemma n_ok : Forall2 (contributes id0 4096) n_blocks n_iss. Proof. contr. Qed.
Lemma n_ok' : Forall2 (contributes id0 4096) n_blocks' n_iss'. Proof. contr. Qed.
#[local] Opaque id0.
(** a check for [orderly] *)
Definition orderlyb (is : list insertion) : bool :=
  forallb (fun i => (i_gen i =? 7) && (KType (i_key i) <? 255) &&
    (match DirItem_Location (sl (i_data i)) with Ok loc => ObjectID loc <? 2^64 - 1 | _ => true end || negb (KType (i_key i) =? 84)) &&
    (negb ((KType (i_key i) =? 84) || (KType (i_key i) =? 108) || (KType (i_key i) =? 228)) || sepb is (i_owner i) (mkKey (ObjectID (i_key i)) (KType (i_key i)) (2^64 - 1)))) is &&
  sepb is 1 (mkKey (2^64 - 256) 132 (2^64 - 1)) && existsb (fun i => ObjectID (i_key i) =? 256) (subvols is).
Lemma orderlyb_ok is : orderlyb is = true -> orderly is.
Proof.
  intros H. apply andb_prop in H as [H HS]. apply andb_prop in H as [H HP]. rewrite forallb_forall in H. apply existsb_exists in HS as (s & Hs & Es). apply Z.eqb_eq in Es.
  assert (HG : forall i, In i is -> i_gen i = 7 /\ KType (i_key i) < 255) by (intros i Hi; specialize (H i Hi); cbn beta in H; apply andb_prop in H as [H _]; apply andb_prop in H as [H _]; lia).
  split; [|split; [|split]].
  - intros i loc Hi Ht Hl. specialize (H i Hi). cbn beta in H. rewrite Hl, Ht in H. apply andb_prop in H as [H _]. apply andb_prop in H as [_ H]. clear -H. lia.
  - intros i Hi. destruct (HG i Hi). lia.
  - intros o t id Ht Hne. split.
    + intros i j Hi Hj. apply filter_In in Hi as [Hi _], Hj as [Hj _]. destruct (HG j (proj1 (tree_in is j o Hj))), (HG i (proj1 (tree_in is i o Hi))). congruence.
    + destruct (group is o t id) as [|i l] eqn:E; [congruence|]. assert (Hi : In i (group is o t id)) by (rewrite E; left; reflexivity). clear E l Hne.
      apply filter_In in Hi as [Hi Hk]. cbn beta in Hk. apply andb_prop in Hk as [Hk1 Hk2]. apply Z.eqb_eq in Hk1, Hk2. destruct (tree_in is i o Hi) as [Hi' Ho].
      specialize (H i Hi'). cbn beta in H. apply andb_prop in H as [_ H]. rewrite Ho, Hk1, Hk2 in H. apply orb_prop in H as [H|H]; [|apply sepb_ok; exact H].
      exfalso. apply negb_true_iff, orb_false_iff in H as [H H3]. apply orb_false_iff in H as [H1 H2]. clear -H1 H2 H3 Ht. lia.
  - intros _. split; [|split; [apply sepb_ok; exact HP|exists s; auto]].
    intros i j Hi Hj. apply filter_In in Hi as [Hi _], Hj as [Hj _]. destruct (HG j (proj1 (tree_in is j 1 Hj))), (HG i (proj1 (tree_in is i 1 Hi))). congruence.
Qed.
Lemma n_orderly : orderly n_is. Proof. apply orderlyb_ok. vm_cast_no_check (eq_refl true). Qed.
Lemma n_orderly' : orderly n_is'. Proof. apply orderlyb_ok. vm_cast_no_check (eq_refl true). Qed.
Lemma n_chunks : chunks_are n_is []. Proof. split; [|exact Logic.I]. set (g := group n_is 3 228 256). vm_compute in g. subst g. apply Forall2_nil. Qed.
Lemma n_chunks' : chunks_are n_is' []. Proof. split; [|exact Logic.I]. set (g := group n_is' 3 228 256). vm_compute in g. subst g. apply Forall2_nil. Qed.
Lemma n_newest : newest_left n_is n_is'.
Proof.
  apply one_version; [apply nodup_items; vm_cast_no_check (eq_refl true)|]. unfold n_is, n_is', n_iss, n_iss'. cbn [concat]. intros i Hi. repeat rewrite in_app_iff in *. cbn [In] in Hi. tauto.
Qed.
(** the volume before the damage *)
Lemma nx_g : Forall2 (is_extent qn) (st_items (q_extents qn 5 260)) [Inline 0 (bz_s [120; 121])].
Proof. st (st_items (q_extents qn 5 260)); apply Forall2_cons; [left; eexists; split; [vm_compute; reflexivity|split; vm_compute; reflexivity]|apply Forall2_nil]. Qed.
Lemma nx_f : Forall2 (is_extent qn) (st_items (q_extents qn 5 258)) [Inline 0 b_abc].
Proof. st (st_items (q_extents qn 5 258)); apply Forall2_cons; [left; eexists; split; [vm_compute; reflexivity|split; vm_compute; reflexivity]|apply Forall2_nil]. Qed.
Lemma nx_x : Forall2 (is_extent qn) (st_items (q_extents qn 256 261)) [Inline 0 b_abc].
Proof. st (st_items (q_extents qn 256 261)); apply Forall2_cons; [left; eexists; split; [vm_compute; reflexivity|split; vm_compute; reflexivity]|apply Forall2_nil]. Qed.
Section Vol.
  Variable D : list byte.
  Ltac fsh xs H := exists xs; eexists; split; [exact H|]; split; [repeat constructor; vm_compute; (reflexivity || discriminate)|]; split; [vm_compute; reflexivity|]; split; [vm_compute; reflexivity|]; split; [vm_compute; reflexivity|]; split; [vm_compute; reflexivity|].
  Lemma nsh_g : file_shows qn D 5 260 (bz_s [120; 121]). Proof. fsh [Inline 0 (bz_s [120; 121])] nx_g. intros j Hj. bytes j Hj 2. Qed.
  Lemma nsh_f : file_shows qn D 5 258 b_abc. Proof. fsh [Inline 0 b_abc] nx_f. intros j Hj. bytes j Hj 3. Qed.
  Lemma nsh_x : file_shows qn D 256 261 b_abc. Proof. fsh [Inline 0 b_abc] nx_x. intros j Hj. bytes j Hj 3. Qed.
  Lemma nsh_l : link_shows qn D 5 259 (bz_s [97; 47; 103]).
  Proof. eexists. split; [vm_compute; reflexivity|]. split; [left; split; vm_compute; reflexivity|vm_compute; reflexivity]. Qed.
  Lemma n_shows : dir_shows qn D 5 256 n_tree [(5, 256); (5, 257); (256, 256)].
  Proof.
    apply (shows_dir qn (shown qn D) 5 256 n_tree [(5, 257); (256, 256)]); [vm_compute; reflexivity|]. st (st_items (q_dirItems qn 5 256)).
    apply (shows_sub qn (shown qn D) 5 _ _ _ s_a 5 257 [(s_g, TFile (bz_s [120; 121]))] _ [(5, 257)] [(256, 256)]).
    - vm_compute; reflexivity.
    - nd. right. split; [vm_compute; discriminate|split; vm_compute; reflexivity].
    - apply (shows_dir qn (shown qn D) 5 257 _ []); [vm_compute; reflexivity|]. st (st_items (q_dirItems qn 5 257)). eapply shows_file; [sys|vm_compute; discriminate|exact nsh_g|nm|intros []|apply shows_nil].
    - nm.
    - vm_compute. intuition discriminate.
    - eapply shows_file; [sys|vm_compute; discriminate|exact nsh_f|nm|vm_compute; intuition discriminate|].
      eapply shows_link; [sys|vm_compute; discriminate|exact nsh_l|nm|vm_compute; intuition discriminate|].
      apply (shows_sub qn (shown qn D) 5 _ _ _ s_s 256 256 [(s_x, TFile b_abc)] _ [(256, 256)] []).
      + vm_compute; reflexivity.
      + nd. left. split; vm_compute; reflexivity.
      + apply (shows_dir qn (shown qn D) 256 256 _ []); [vm_compute; reflexivity|]. st (st_items (q_dirItems qn 256 256)). eapply shows_file; [sys|vm_compute; discriminate|exact nsh_x|nm|intros []|apply shows_nil].
      + nm.
      + intros [].
      + apply shows_nil.
  Qed.
End Vol.
Lemma nd_inode o i size : (exists e, q_inode qn o i = Ok (Some e) /\ carries e (inode_fields (mkino size))) -> has_inode qn o i (mkino size).
Proof. intros (e & H & HC). exists e. split; [exact H|]. split; [exact HC|]. unfold inode_times_ok, ts_ok; cbn; lia. Qed.
Ltac ino s := apply (nd_inode _ _ s); exists (sl (ser (inode_fields (mkino s)))); split; [vm_compute; reflexivity|rewrite <- (app_nil_r (ser (inode_fields (mkino s)))); apply carries_self; apply fits_b; vm_compute; reflexivity].
Ltac mit s := do 2 eexists; exists (mkino s); split; [vm_compute; reflexivity|]; split; [vm_compute; reflexivity|]; split; [ino s|].
Lemma n_mountable : mountable qn [(5, 256); (5, 257); (256, 256)].
Proof.
  intros o d H. destruct H as [H|[H|[H|[]]]]; injection H as <- <-.
  - split; [exists (mkino 0); ino 0|]. set (l := st_items (q_dirItems qn 5 256)). vm_compute in l. subst l. intros e [<-|[<-|[<-|[<-|[]]]]]; cbn [snd].
    + mit 0. left; reflexivity.
    + mit 3. right; left. split; [discriminate|]. split; [reflexivity|]. exists [Inline 0 b_abc]. split; [exact nx_f|]. left. eexists. split; [reflexivity|vm_compute; discriminate].
    + mit 3. right; right. split; [discriminate|]. split; [reflexivity|]. eexists. split; vm_compute; reflexivity.
    + mit 0. left; reflexivity.
  - split; [exists (mkino 0); ino 0|]. set (l := st_items (q_dirItems qn 5 257)). vm_compute in l. subst l. intros e [<-|[]]; cbn [snd].
    mit 2. right; left. split; [discriminate|]. split; [reflexivity|]. exists [Inline 0 (bz_s [120; 121])]. split; [exact nx_g|]. left. eexists. split; [reflexivity|vm_compute; discriminate].
  - split; [exists (mkino 0); ino 0|]. set (l := st_items (q_dirItems qn 256 256)). vm_compute in l. subst l. intros e [<-|[]]; cbn [snd].
    mit 3. right; left. split; [discriminate|]. split; [reflexivity|]. exists [Inline 0 b_abc]. split; [exact nx_x|]. left. eexists. split; [reflexivity|vm_compute; discriminate].
Qed.
(** what is left *)
Lemma n_found_s : found qn' [s_s] (256, 256) true.
Proof.
  refine (found_entry qn' [] 5 256 _ _ s_s (mkKey 256 132 0) _ true (found_top _) _ _ _ _ _).
  - it (st_items (q_dirItems qn' 5 256)). right. right. right. left. reflexivity.
  - vm_compute. reflexivity.
  - vm_compute. reflexivity.
  - vm_compute. reflexivity.
  - vm_compute. reflexivity.
Qed.
Lemma n_found_x : found qn' [s_s; s_x] (256, 261) false.
Proof.
  refine (found_entry qn' [s_s] 256 256 _ _ s_x (mkKey 261 1 0) _ false n_found_s _ _ _ _ _).
  - it (st_items (q_dirItems qn' 256 256)). left. reflexivity.
  - vm_compute. reflexivity.
  - vm_compute. reflexivity.
  - vm_compute. reflexivity.
  - vm_compute. reflexivity.
Qed.
Lemma n_left_x D D' bad : good_file (untouched qn qn' D D' bad) 256 261.
Proof.
  split; [exists b_abc; apply nsh_x|]. split; [vm_compute; reflexivity|]. split; [vm_compute; reflexivity|].
  intros xs off n src p HF HI. exfalso. refine (no_disk _ _ _ _ _ _ HF _ HI). it (st_items (q_extents qn 256 261)). intros e [<-|[]]. vm_compute. reflexivity.
Qed.
Lemma n_gone : q_inode qn' 5 258 = Ok None. Proof. vm_compute. reflexivity. Qed.
(** file x of the subvolume s is found, opened and read *)
Definition x_read (q : queries) (dev : readerAt) : Prop :=
  exists T n f, session q T /\ In ([s_s; s_x], false, n) T /\ Open q n = Ok (Some f, OK) /\ exists fuel, read_on fuel (Reader dev) f [x2e] 3 [] = Some b_abc.
Example C70_recon_ex : forall N, enough N -> let D := image_of 4096 n_blocks N in
  exists b ix, doScanFS true true PropsRecon.no_faults (file_dev D) 4096 id0 None = (Some b, XOk) /\ OpenReadOnly (Some b) = Ok (Some b, Some ix) /\
    forall rfuel, (length b + 1 < rfuel)%nat -> x_read (ix_queries rfuel b (ix_Generation ix)) (file_reader D).
Proof.
  intros N HN D. destruct (blocks_image id0 n_blocks n_iss N HN n_lens ltac:(vm_compute; reflexivity) n_ok) as [HB HI]. fold D in HB, HI. change (concat n_iss) with n_is in HI.
  destruct (C70_recon_then_mount id0 D 4096 n_is [] n_tree _ (file_reader D) HB ltac:(lia) id0_len id0_nonzero HI n_orderly n_chunks (n_shows D) n_mountable (file_reader_good D)) as (b & ix & R1 & R2 & _ & R3).
  exists b, ix. split; [exact R1|]. split; [exact R2|]. intros rfuel Hr. destruct (R3 rfuel Hr) as [HV HP].
  destruct (HP _ [s_s; s_x] (TFile b_abc) (ses_mount _) (ex_intro _ _ (or_introl eq_refl)) eq_refl) as (T & n & S1 & _ & M1).
  destruct (HV T _ _ _ S1 M1) as (t & E1 & _ & (_ & V1)). change (tree_sub (TDir n_tree) [s_s; s_x]) with (Some (TFile b_abc)) in E1. injection E1 as <-. destruct V1 as (f & O1 & R).
  exists T, n, f. split; [exact S1|]. split; [exact M1|]. split; [exact O1|]. apply R; [discriminate|vm_compute; reflexivity].
Qed.
(** with the leaf lost x is read all the same; f is still named, but has no attributes *)
Definition n_view (q : queries) (dev : readerAt) : Prop :=
  x_read q dev /\ exists n' c, Lookup q mount_node s_f = Ok (n', Some (c, false), None, ENOATTR).
Lemma n_views q D D' bad dev : 
  (forall T p isd n, session q T -> In (p, isd, n) T ->
     exists t, tree_sub (TDir n_tree) p = Some t /\ isd = is_tdir t /\ found qn' p (n_owner n, n_inode n) isd /\ shows_left qn qn' q D D' bad dev t n) ->
  (forall T p k isd, session q T -> (exists n, In ([], true, n) T) -> found qn' p k isd ->
     exists T' n, session q T' /\ incl (map fst T) (map fst T') /\ In (p, isd, n) T' /\ (n_owner n, n_inode n) = k) -> n_view q dev.
Proof.
  intros HV HP. split.
  - destruct (HP _ _ _ _ (ses_mount q) (ex_intro _ _ (or_introl eq_refl)) n_found_x) as (T & n & S1 & _ & S2 & S3). destruct (HV T _ _ _ S1 S2) as (t & E1 & _ & _ & _ & V). change (tree_sub (TDir n_tree) [s_s; s_x]) with (Some (TFile b_abc)) in E1. injection E1 as <-. injection S3 as E2 E3. rewrite E2, E3 in V.
    destruct V as [_ V]. destruct (V (n_left_x D D' bad)) as (f & O1 & R). exists T, n, f. split; [exact S1|]. split; [exact S2|]. split; [exact O1|]. apply R; [discriminate|vm_compute; reflexivity].
  - destruct (HV _ [] true mount_node (ses_mount q) (or_introl eq_refl)) as (t & E1 & _ & _ & _ & V). injection E1 as <-. change (n_owner mount_node) with 5 in V. change (n_inode mount_node) with 256 in V. destruct V as (kids' & [K1 K2] & _ & V). 
    assert (HK : pick kids' s_f = Some (TFile b_abc)).
    { clear V. assert (HN : map fst kids' = [s_a; s_f; s_l; s_s]).
      { assert (HM : map (fun e => DirItem_Name (snd e)) (st_items (q_dirItems qn' 5 256)) = [Ok s_a; Ok s_f; Ok s_l; Ok s_s]) by (vm_compute; reflexivity).
        clear K1. assert (HE : map (fun e => DirItem_Name (snd e)) (st_items (q_dirItems qn' 5 256)) = map Ok (map fst kids')) by (clear HM; induction K2 as [|x y l l' Hxy _ IH]; [reflexivity|cbn [map]; rewrite Hxy; f_equal; exact IH]).
        rewrite HM in HE. clear -HE. destruct kids' as [|k1 [|k2 [|k3 [|k4 [|k5 kids']]]]]; try discriminate. cbn [map] in *. congruence. }
      clear K2. unfold n_tree in K1. clear -K1 HN. repeat match goal with H : part_of _ (_ :: _) |- _ => inversion H; clear H; subst | H : part_of _ [] |- _ => inversion H; clear H; subst end; cbn [map fst] in HN; try discriminate. vm_compute. reflexivity. }
    specialize (V s_f). rewrite HK in V. destruct V as (n' & c & a & st & L1 & L2). cbn [is_tdir] in L1.
    destruct L2 as [(-> & HA & HI)|(-> & -> & _)]; [|exists n', c; exact L1]. exfalso. apply HI.
    assert (HS : session q ([([], true, n')] ++ [([s_f], false, c)])) by exact (ses_found q [] [] mount_node [] s_f n' c false a (ses_mount q) L1).
    destruct (HV _ [s_f] false c HS (or_intror (or_introl eq_refl))) as (t & _ & _ & HFd & _).
    assert (HKy : forall p k isd, found qn' p k isd -> p = [s_f] -> k = (5, 258)).
    { clear. intros p k isd H. destruct H as [|p o d k di name loc it isd H HI HN HL _ _]; intros E; [discriminate|]. apply (app_inj_tail p [] name s_f) in E as [-> ->]. apply found_nil in H; [|reflexivity]. injection H as -> ->.
      revert HI. change FSTreeObjectID with 5. change FirstFreeObjectID with 256. st (st_items (q_dirItems qn' 5 256)). intros HI. assert (X : forall (a c : list byte) (b d : slice), (a, b) = (c, d) -> b = d) by congruence.
      repeat (destruct HI as [HI|HI]; [apply X in HI; subst di; try (exfalso; vm_compute in HN; discriminate HN); apply (f_equal (fun r => match r with Ok l => child_key 5 l | _ => (0, 0) end)) in HL; rewrite <- HL; vm_compute; reflexivity|]). destruct HI. }
    pose proof (HKy _ _ _ HFd eq_refl) as E. injection E as -> ->. exact n_gone.
Qed.
Example C81_ex : n_view qn' (file_reader ex_dev).
Proof.
  assert (HDm : damaged (fun _ => False) ex_dev (file_reader ex_dev)) by (destruct (file_reader_good ex_dev) as [A B]; split; [exact A|intros n off H1 H2 H3 _; exact (B n off H1 H2 H3)]).
  destruct (C81_mounted_rest qn qn' ex_dev ex_dev _ (file_reader ex_dev) n_tree _ (n_shows ex_dev) n_mountable (table_misses n_is n_is' n_newest []) HDm eq_refl ltac:(vm_compute; reflexivity)) as [HV HP].
  exact (n_views qn' ex_dev ex_dev _ (file_reader ex_dev) HV HP).
Qed.
Example C82_ex : forall N, enough N -> let D' := image_of 4096 n_blocks' N in
  exists b ix, doScanFS true true PropsRecon.no_faults (file_dev D') 4096 id0 None = (Some b, XOk) /\ OpenReadOnly (Some b) = Ok (Some b, Some ix) /\
    forall rfuel, (length b + 1 < rfuel)%nat -> n_view (ix_queries rfuel b (ix_Generation ix)) (file_reader D').
Proof.
  intros N HN D'. set (D := image_of 4096 n_blocks N). assert (B6 : zlen n_blocks' = 6) by (vm_compute; reflexivity). assert (B6' : zlen n_blocks = 6) by (vm_compute; reflexivity).
  destruct (blocks_image id0 n_blocks' n_iss' N HN n_lens' ltac:(rewrite B6; reflexivity) n_ok') as [HB HI]. fold D' in HB, HI. change (concat n_iss') with n_is' in HI.
  assert (HD : zlen D' = zlen D) by (unfold D, D'; rewrite !image_of_len, B6, B6'; [reflexivity|lia|unfold enough in HN; lia|exact n_lens|lia|unfold enough in HN; lia|exact n_lens']).
  destruct (C82_damaged_image_mounted id0 D D' 4096 n_is n_is' [] n_tree _ (n_shows D) n_mountable HB ltac:(lia) id0_len id0_nonzero HD HI n_newest n_orderly' n_chunks') as (b & ix & R1 & R2 & _ & R3).
  exists b, ix. split; [exact R1|]. split; [exact R2|]. intros rfuel Hr. destruct (R3 rfuel Hr) as [HV HP]. exact (n_views _ D D' _ _ HV HP).
Qed.
Print Assumptions C70_recon_ex. Print Assumptions C81_ex. Print Assumptions C82_ex.

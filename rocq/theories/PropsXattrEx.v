(** C96, C97: two files, and two extended attributes, whose names have the same hash; btrfs keeps them in one item. *)
From Verif Require Import Go GoProofs Layout LayoutProofs SpecLayout LeafProofs StructProofs PropsLayout KeyFmt KeyProofs Crc Bolt Store StoreProofs SpecStore RangeProofs PropsStore PropsRange Session PropsSession IoUtil Recon PropsRecon PropsReconEx.
From Verif Require Import PropsPath ToString Fs Recover SpecFs SpecContent SpecTree SpecDisk DiskProofs PropsDest PropsDisk Rescue PropsRescueNode.
From Verif Require Import PropsRecoverEx PropsTreeEx PropsDiskEx SpecGen PropsGen PropsGenEx PropsXattr.
From Coq Require Import ZifyBool ZifyNat ZifyN.
Ltac Zify.zify_post_hook ::= Z.div_mod_to_equations.

(** daa9d and 8bt_x, with or without "user." in front *)
Definition n_1 : list byte := [x64; x61; x61; x39; x64].
Definition n_2 : list byte := [x38; x62; x74; x5f; x78].
Definition n_user : list byte := [x75; x73; x65; x72; x2e].
Lemma n_collide : n_1 <> n_2 /\ NameHash n_1 = NameHash n_2 /\ NameHash (n_user ++ n_1) = NameHash (n_user ++ n_2).
Proof. split; [discriminate|]. split; vm_compute; reflexivity. Qed.
Definition p_files : list d_dir_item := [mkdi 261 1 1 n_1; mkdi 262 1 1 n_2].
Definition p_attrs : list d_dir_item := [xattr (n_user ++ n_1) [x41]; xattr (n_user ++ n_2) [x42]].
Definition pe : list leaf_entry :=
  [d_ino 256 0; de 256 84 (NameHash n_1) (ser (flat_map dir_item_fields p_files));
   d_ino 261 3; de 261 24 (NameHash (n_user ++ n_1)) (ser (flat_map dir_item_fields p_attrs)); d_inl 261 0 b_abc; d_ino 262 2; d_inl 262 0 (bz_s [120; 121])].
Definition k_blocks : list (list byte) := [g_leaf 7 5 pe].
Definition k_iss : list (list insertion) := [g_items 7 5 pe].
Definition k_is : list insertion := concat k_iss.
Lemma k_lens : Forall (fun bl => zlen bl = 4096) k_blocks. Proof. repeat constructor; vm_compute; reflexivity. Qed.
Lemma k_ok : Forall2 (contributes id0 4096) k_blocks k_iss.
Proof.
  assert (H : forall g o es, leaf_ok (dhg g o (zlen es)) 4096 es (d_gap es) -> es <> [] -> o < 2^64 - 1 -> contributes id0 4096 (g_leaf g o es) (g_items g o es)) by (intros; apply c_leaf; auto; reflexivity).
  apply Forall2_cons; [apply H; [unfold leaf_ok; repeat split; try (apply fits_b); vm_compute; reflexivity|discriminate|reflexivity]|apply Forall2_nil].
Qed.
#[local] Opaque id0.
Lemma k_sep : separated k_is. Proof. apply separatedb_ok; vm_cast_no_check (eq_refl true). Qed.
Lemma k_chunks : seen_chunks k_is []. Proof. split; [|exact Logic.I]. set (g := seen_group k_is 3 228 256). vm_compute in g. subst g. apply Forall2_nil. Qed.
Definition t_1 : list byte * tree := (n_1, TFile b_abc).
Section Vol.
  Variable D : list byte.
  Lemma k1 : file_shows (seen k_is []) D 5 261 b_abc.
  Proof.
    exists [Inline 0 b_abc]; eexists; split; [st (st_items (q_extents (seen k_is []) 5 261)); apply Forall2_cons; [left; eexists; split; [vm_compute; reflexivity|split; vm_compute; reflexivity]|apply Forall2_nil]|].
    split; [repeat constructor; vm_compute; reflexivity|]; split; [vm_compute; reflexivity|]; split; [vm_compute; reflexivity|]; split; [vm_compute; reflexivity|]; split; [vm_compute; reflexivity|]; intros j Hj. bytes j Hj 3.
  Qed.
  Lemma kv : volume_shows (seen k_is []) D [t_1].
  Proof.
    exists [t_1], [(5, 256)], []; split; [apply (shows_dir (seen k_is []) (shown (seen k_is []) D) 5 256 [t_1] []); [vm_compute; reflexivity|]; st (st_items (q_dirItems (seen k_is []) 5 256))|].
    - eapply shows_file; [sys|vm_compute; discriminate|exact k1|nm|vm_compute; intuition discriminate|]. apply shows_nil.
    - split; [repeat constructor; intros []|]; split; [st (st_items (q_subvolumes (seen k_is []))); apply subs_nil|]; split; [vm_compute; reflexivity|]; split; [reflexivity|intros n Hn []].
  Qed.
End Vol.
Lemma k_short : paths_short (abs1 s_d) [t_1].
Proof. intros r Hr; apply in_all_paths in Hr; revert r Hr; apply Forall_forall; vm_compute; repeat constructor. Qed.
Lemma k_packs : Forall2 packs (seen_group k_is 5 24 261) [p_attrs].
Proof.
  set (g := seen_group k_is 5 24 261). vm_compute in g. subst g. apply Forall2_cons; [|apply Forall2_nil]. split; [vm_compute; reflexivity|]. split; [apply fits_b; vm_compute; reflexivity|]. split; [discriminate|].
  repeat constructor; vm_compute; discriminate.
Qed.
Lemma k_group : exists i, In i k_is /\ i_owner i = 5 /\ i_key i = mkKey 256 84 (NameHash n_1) /\ packs i p_files.
Proof.
  exists (nth 1 k_is (nth 0 k_is {| i_owner := 0; i_key := mkKey 0 0 0; i_gen := 0; i_item := []; i_data := [] |})). split; [vm_compute; auto|]. split; [vm_compute; reflexivity|]. split; [vm_compute; reflexivity|].
  split; [vm_compute; reflexivity|]. split; [apply fits_b; vm_compute; reflexivity|]. split; [discriminate|]. repeat constructor; vm_compute; discriminate.
Qed.
#[local] Opaque k_blocks k_is k_iss NameHash.
(** C97: the root directory has the files daa9d and 8bt_x, both with inodes and contents on the image; recover
    restores the first, and says nothing of the second *)
Theorem C97_refuted : forall N cfuel, enough N -> 2^64 < Z.of_nat cfuel ->
  let D := image_of 4096 k_blocks N in
  n_1 <> n_2 /\ NameHash n_1 = NameHash n_2 /\ image_items id0 D 4096 k_is /\ separated k_is /\
  (exists i, In i k_is /\ i_owner i = 5 /\ i_key i = mkKey 256 84 (NameHash n_1) /\ packs i [mkdi 261 1 1 n_1; mkdi 262 1 1 n_2]) /\
  exists b ix, doScanFS true true PropsRecon.no_faults (file_dev D) 4096 id0 None = (Some b, XOk) /\ OpenReadOnly (Some b) = Ok (Some b, Some ix) /\
    forall rfuel, (length b + 1 < rfuel)%nat -> exists fuel w' v evs,
      doRecoverFiles fuel cfuel E0 (file_reader D) (ix_queries rfuel b (ix_Generation ix)) false (abs1 s_d) (w0 F_o) = (w', Ret (true, v)) /\
      holds_tree (w_fs w') [s_d] (TDir [t_1]) /\ w_log w' = evs ++ [] /\ (forall k s, ~ In (EvWarn k s) evs).
Proof.
  intros N cfuel HN Hcf D. destruct (blocks_image id0 k_blocks k_iss N HN k_lens ltac:(vm_compute; reflexivity) k_ok) as [HB HI]. fold D in HB, HI. change (concat k_iss) with k_is in HI.
  split; [apply n_collide|]. split; [apply n_collide|]. split; [exact HI|]. split; [apply k_sep|]. split; [exact k_group|].
  assert (HF : part_of_tree F_o [s_d] (TDir [t_1]) /\ replaceable false F_o [s_d] (TDir [t_1])) by (split; [|right]; intros r nd H; rewrite o_look in H; discriminate).
  destruct (C95_recover id0 D 4096 k_is [] [t_1] E0 false (abs1 s_d) (w0 F_o) [s_d] cfuel HB ltac:(lia) id0_len id0_nonzero HI k_sep k_chunks (kv D) ltac:(intros n k; reflexivity) Hcf o_dest k_short (proj1 HF) (proj2 HF)) as (b & ix & H1 & H2 & _ & H3).
  exists b, ix. split; [exact H1|]. split; [exact H2|]. intros rfuel Hr. destruct (H3 rfuel Hr) as (f0 & H). destruct (H f0 (le_n f0)) as (w' & v & evs & A1 & A2 & _ & _ & A4 & A5). exists f0, w', v, evs. auto.
Qed.
Print Assumptions C97_refuted.
(** C96: the file has the attributes user.daa9d and user.8bt_x; the mount lists only the first and does not find the second *)
Theorem C96_refuted : forall N, enough N ->
  let D := image_of 4096 k_blocks N in
  image_items id0 D 4096 k_is /\ separated k_is /\ Forall2 packs (seen_group k_is 5 24 261) [[xattr (n_user ++ n_1) [x41]; xattr (n_user ++ n_2) [x42]]] /\
  exists b ix, doScanFS true true PropsRecon.no_faults (file_dev D) 4096 id0 None = (Some b, XOk) /\ OpenReadOnly (Some b) = Ok (Some b, Some ix) /\
    forall rfuel, (length b + 1 < rfuel)%nat -> let xs := ix_xattrs rfuel b (ix_Generation ix) 5 261 in
      ListXAttr xs = Ok [n_user ++ n_1] /\ GetXAttr xs (n_user ++ n_1) = Ok (Some [x41], OK) /\ GetXAttr xs (n_user ++ n_2) = Ok (None, ENOATTR).
Proof.
  intros N HN D. destruct (blocks_image id0 k_blocks k_iss N HN k_lens ltac:(vm_compute; reflexivity) k_ok) as [HB HI]. fold D in HB, HI. change (concat k_iss) with k_is in HI.
  split; [exact HI|]. split; [apply k_sep|]. split; [exact k_packs|].
  assert (HA : kept_apart k_is 5 24 261) by (intros _; apply sepb_ok; vm_cast_no_check (eq_refl true)).
  destruct (C96_xattrs id0 D 4096 k_is 5 261 [p_attrs] HB ltac:(lia) id0_len id0_nonzero HI k_sep ltac:(lia) ltac:(lia) HA k_packs) as (b & ix & H1 & H2 & _ & H3).
  exists b, ix. split; [exact H1|]. split; [exact H2|]. intros rfuel Hr. destruct (H3 rfuel Hr) as [Q1 Q2]. cbv zeta. split; [exact Q1|]. split; rewrite Q2; reflexivity.
Qed.
Print Assumptions C96_refuted.

(** C95: a directory whose items lie in two leaves of different generations. *)
From Verif Require Import Go GoProofs Layout LayoutProofs SpecLayout LeafProofs StructProofs PropsLayout KeyFmt KeyProofs Bolt Store StoreProofs SpecStore RangeProofs PropsStore PropsRange Session PropsSession IoUtil Recon PropsRecon PropsReconEx.
From Verif Require Import PropsPath ToString Fs Recover SpecFs SpecContent SpecTree SpecDisk DiskProofs PropsDest PropsDisk.
From Verif Require Import PropsRecoverEx PropsTreeEx PropsDiskEx SpecGen PropsGen.
From Coq Require Import ZifyBool ZifyNat ZifyN.
Ltac Zify.zify_post_hook ::= Z.div_mod_to_equations.

(** a leaf of generation [g] *)
Definition dhg (g o n : Z) : d_header := {| h_csum := repeat x00 32; h_fsid := repeat x0a 16; h_bytenr := 65536; h_flags := 1;
  h_chunk_tree_uuid := repeat x0b 16; h_generation := g; h_owner := o; h_nritems := n; h_level := 0 |}.
Definition g_leaf (g o : Z) (es : list leaf_entry) : list byte := leaf_block (dhg g o (zlen es)) 4096 es (d_gap es).
Definition g_items (g o : Z) (es : list leaf_entry) : list insertion := leaf_items (dhg g o (zlen es)) (4096 - 101) es.
(** the root directory has files x and y; the leaf with y (and the inodes) was written last *)
Definition ge1 : list leaf_entry := [d_ino 256 0; d_dir 256 100 261 1 1 s_x].
Definition ge2 : list leaf_entry := [d_dir 256 200 262 1 1 s_y; d_ino 261 3; d_inl 261 0 b_abc; d_ino 262 2; d_inl 262 0 (bz_s [120; 121])].
Definition g_blocks : list (list byte) := [g_leaf 7 5 ge1; g_leaf 8 5 ge2].
Definition g_iss : list (list insertion) := [g_items 7 5 ge1; g_items 8 5 ge2].
Definition g_is : list insertion := concat g_iss.
(** the same with an older copy of the second leaf, in which a file f was where y is now *)
Definition ge0 : list leaf_entry := [d_dir 256 200 262 1 1 s_f; d_ino 261 3; d_inl 261 0 b_abc; d_ino 262 2; d_inl 262 0 (bz_s [120; 121])].
Definition o_blocks : list (list byte) := [g_leaf 8 5 ge2; g_leaf 7 5 ge1; g_leaf 7 5 ge0].
Definition o_iss : list (list insertion) := [g_items 8 5 ge2; g_items 7 5 ge1; g_items 7 5 ge0].
Definition o_is : list insertion := concat o_iss.
Lemma g_lens : Forall (fun bl => zlen bl = 4096) g_blocks /\ Forall (fun bl => zlen bl = 4096) o_blocks. Proof. split; repeat constructor; vm_compute; reflexivity. Qed.
Lemma g_ok : Forall2 (contributes id0 4096) g_blocks g_iss /\ Forall2 (contributes id0 4096) o_blocks o_iss.
Proof.
  assert (H : forall g o es, leaf_ok (dhg g o (zlen es)) 4096 es (d_gap es) -> es <> [] -> o < 2^64 - 1 -> contributes id0 4096 (g_leaf g o es) (g_items g o es)) by (intros; apply c_leaf; auto; reflexivity).
  split; repeat (apply Forall2_cons; [apply H; [unfold leaf_ok; repeat split; try (apply fits_b); vm_compute; reflexivity|discriminate|reflexivity]|]); apply Forall2_nil.
Qed.
#[local] Opaque id0.
(** checking [separated] by computation *)
Definition separatedb (is : list insertion) : bool :=
  forallb (fun i => match DirItem_Location (sl (i_data i)) with Ok loc => ObjectID loc <? 2^64 - 1 | _ => true end || negb (KType (i_key i) =? 84)) is &&
  forallb (fun i => (i_gen i <? 2^64 - 1) && (KType (i_key i) <? 255)) is &&
  forallb (fun i => negb ((KType (i_key i) =? 84) || (KType (i_key i) =? 108) || (KType (i_key i) =? 228)) || sepb is (i_owner i) (mkKey (ObjectID (i_key i)) (KType (i_key i)) (2^64 - 1))) is &&
  match subvols is with [] => true | _ => sepb is 1 (mkKey (2^64 - 256) 132 (2^64 - 1)) end.
Lemma separatedb_ok is : separatedb is = true -> separated is.
Proof.
  unfold separatedb. rewrite !andb_true_iff, !forallb_forall. intros (((H1 & H2) & H3) & H4). split; [|split; [|split]].
  - intros i loc Hi Ht Hl. specialize (H1 i Hi). cbv beta in H1. rewrite Hl, Ht in H1. clear -H1. lia.
  - intros i Hi. specialize (H2 i Hi). clear -H2. lia.
  - intros o t id Ht HN. destruct (group is o t id) as [|i l] eqn:E; [congruence|]. assert (Hi : In i (group is o t id)) by (rewrite E; left; reflexivity). clear E l HN.
    apply filter_In in Hi as [Hi Hk]. cbv beta in Hk. apply andb_prop in Hk as [Hk1 Hk2]. apply Z.eqb_eq in Hk1, Hk2. destruct (tree_in is i o Hi) as [Hi' Ho].
    specialize (H3 i Hi'). cbv beta in H3. rewrite Ho, Hk1, Hk2 in H3. apply sepb_ok. apply orb_prop in H3 as [H3|H3]; [|exact H3]. exfalso. clear -Ht H3. lia.
  - intros HN. apply sepb_ok. destruct (subvols is); [congruence|exact H4].
Qed.
Lemma g_sep : separated g_is /\ separated o_is.
Proof. split; apply separatedb_ok; vm_cast_no_check (eq_refl true). Qed.
Lemma g_chunks : seen_chunks g_is [] /\ seen_chunks o_is [].
Proof. split; split; [set (g := seen_group g_is 3 228 256)| |set (g := seen_group o_is 3 228 256)|]; try exact Logic.I; vm_compute in g; subst g; apply Forall2_nil. Qed.
Definition t_x : list byte * tree := (s_x, TFile b_abc).
Definition t_y : list byte * tree := (s_y, TFile (bz_s [120; 121])).
Definition t_f : list byte * tree := (s_f, TFile (bz_s [120; 121])).
Section Vol.
  Variable D : list byte.
  Ltac fl q i dat := exists [Inline 0 dat]; eexists; split; [st (st_items (q_extents q 5 i)); apply Forall2_cons; [left; eexists; split; [vm_compute; reflexivity|split; vm_compute; reflexivity]|apply Forall2_nil]|];
    split; [repeat constructor; vm_compute; reflexivity|]; split; [vm_compute; reflexivity|]; split; [vm_compute; reflexivity|]; split; [vm_compute; reflexivity|]; split; [vm_compute; reflexivity|]; intros j Hj.
  Lemma x1 : file_shows (table g_is []) D 5 261 b_abc. Proof. fl (table g_is []) 261 b_abc. bytes j Hj 3. Qed.
  Lemma y1 : file_shows (table g_is []) D 5 262 (bz_s [120; 121]). Proof. fl (table g_is []) 262 (bz_s [120; 121]). bytes j Hj 2. Qed.
  Lemma x2 : file_shows (seen g_is []) D 5 261 b_abc. Proof. fl (seen g_is []) 261 b_abc. bytes j Hj 3. Qed.
  Lemma x3 : file_shows (table o_is []) D 5 261 b_abc. Proof. fl (table o_is []) 261 b_abc. bytes j Hj 3. Qed.
  Lemma y3 : file_shows (table o_is []) D 5 262 (bz_s [120; 121]). Proof. fl (table o_is []) 262 (bz_s [120; 121]). bytes j Hj 2. Qed.
  Lemma x4 : file_shows (seen o_is []) D 5 261 b_abc. Proof. fl (seen o_is []) 261 b_abc. bytes j Hj 3. Qed.
  Lemma y4 : file_shows (seen o_is []) D 5 262 (bz_s [120; 121]). Proof. fl (seen o_is []) 262 (bz_s [120; 121]). bytes j Hj 2. Qed.
  Ltac vol q kids k := exists kids, [(5, 256)], []; split; [apply (shows_dir q (shown q D) 5 256 kids []); [vm_compute; reflexivity|]; st (st_items (q_dirItems q 5 256)); k|];
    split; [repeat constructor; intros []|]; split; [st (st_items (q_subvolumes q)); apply subs_nil|]; split; [vm_compute; reflexivity|]; split; [reflexivity|intros n Hn []].
  Ltac fi l := eapply shows_file; [sys|vm_compute; discriminate|exact l|nm|vm_compute; intuition discriminate|].
  Lemma v1 : volume_shows (table g_is []) D [t_x; t_y]. Proof. vol (table g_is []) [t_x; t_y] ltac:(fi x1; fi y1; apply shows_nil). Qed.
  Lemma v2 : volume_shows (seen g_is []) D [t_x]. Proof. vol (seen g_is []) [t_x] ltac:(fi x2; apply shows_nil). Qed.
  Lemma v3 : volume_shows (table o_is []) D [t_x; t_y]. Proof. vol (table o_is []) [t_x; t_y] ltac:(fi x3; fi y3; apply shows_nil). Qed.
  Lemma v4 : volume_shows (seen o_is []) D [t_x; t_f]. Proof. vol (seen o_is []) [t_x; t_f] ltac:(fi x4; fi y4; apply shows_nil). Qed.
End Vol.
Lemma g_short kids : In kids [[t_x]; [t_x; t_f]] -> paths_short (abs1 s_d) kids.
Proof. intros [<-|[<-|[]]]; intros r Hr; apply in_all_paths in Hr; revert r Hr; apply Forall_forall; vm_compute; repeat constructor. Qed.
#[local] Opaque g_blocks g_is g_iss o_blocks o_is o_iss.
(** the newest version of every item says that the root directory holds x and y, and the blocks are sound, but
    recover restores x only and reports no problem *)
Theorem C95_refuted : forall N cfuel, enough N -> 2^64 < Z.of_nat cfuel ->
  let D := image_of 4096 g_blocks N in
  image_items id0 D 4096 g_is /\ separated g_is /\ volume_shows (table g_is []) D [t_x; t_y] /\
  exists b ix, doScanFS true true PropsRecon.no_faults (file_dev D) 4096 id0 None = (Some b, XOk) /\ OpenReadOnly (Some b) = Ok (Some b, Some ix) /\
    forall rfuel, (length b + 1 < rfuel)%nat -> exists fuel w' v evs,
      doRecoverFiles fuel cfuel E0 (file_reader D) (ix_queries rfuel b (ix_Generation ix)) false (abs1 s_d) (w0 F_o) = (w', Ret (true, v)) /\
      holds_tree (w_fs w') [s_d] (TDir [t_x]) /\ w_log w' = evs ++ [] /\ (forall k s, ~ In (EvWarn k s) evs).
Proof.
  intros N cfuel HN Hcf D. destruct (blocks_image id0 g_blocks g_iss N HN (proj1 g_lens) ltac:(vm_compute; reflexivity) (proj1 g_ok)) as [HB HI]. fold D in HB, HI. change (concat g_iss) with g_is in HI.
  split; [exact HI|]. split; [apply g_sep|]. split; [apply v1|].
  assert (HF : part_of_tree F_o [s_d] (TDir [t_x]) /\ replaceable false F_o [s_d] (TDir [t_x])) by (split; [|right]; intros r nd H; rewrite o_look in H; discriminate).
  destruct (C95_recover id0 D 4096 g_is [] [t_x] E0 false (abs1 s_d) (w0 F_o) [s_d] cfuel HB ltac:(lia) id0_len id0_nonzero HI (proj1 g_sep) (proj1 g_chunks) (v2 D) ltac:(intros n k; reflexivity) Hcf o_dest (g_short _ (or_introl eq_refl)) (proj1 HF) (proj2 HF)) as (b & ix & H1 & H2 & _ & H3).
  exists b, ix. split; [exact H1|]. split; [exact H2|]. intros rfuel Hr. destruct (H3 rfuel Hr) as (f0 & H). destruct (H f0 (le_n f0)) as (w' & v & evs & A1 & A2 & _ & _ & A4 & A5). exists f0, w', v, evs. auto.
Qed.
Print Assumptions C95_refuted.
(** ... and where an old copy of the second leaf is left, the file that y replaced comes back instead of y *)
Theorem C95_old_refuted : forall N cfuel, enough N -> 2^64 < Z.of_nat cfuel ->
  let D := image_of 4096 o_blocks N in
  image_items id0 D 4096 o_is /\ separated o_is /\ volume_shows (table o_is []) D [t_x; t_y] /\
  exists b ix, doScanFS true true PropsRecon.no_faults (file_dev D) 4096 id0 None = (Some b, XOk) /\ OpenReadOnly (Some b) = Ok (Some b, Some ix) /\
    forall rfuel, (length b + 1 < rfuel)%nat -> exists fuel w' v evs,
      doRecoverFiles fuel cfuel E0 (file_reader D) (ix_queries rfuel b (ix_Generation ix)) false (abs1 s_d) (w0 F_o) = (w', Ret (true, v)) /\
      holds_tree (w_fs w') [s_d] (TDir [t_x; t_f]) /\ w_log w' = evs ++ [] /\ (forall k s, ~ In (EvWarn k s) evs).
Proof.
  intros N cfuel HN Hcf D. destruct (blocks_image id0 o_blocks o_iss N HN (proj2 g_lens) ltac:(vm_compute; reflexivity) (proj2 g_ok)) as [HB HI]. fold D in HB, HI. change (concat o_iss) with o_is in HI.
  split; [exact HI|]. split; [apply g_sep|]. split; [apply v3|].
  assert (HF : part_of_tree F_o [s_d] (TDir [t_x; t_f]) /\ replaceable false F_o [s_d] (TDir [t_x; t_f])) by (split; [|right]; intros r nd H; rewrite o_look in H; discriminate).
  destruct (C95_recover id0 D 4096 o_is [] [t_x; t_f] E0 false (abs1 s_d) (w0 F_o) [s_d] cfuel HB ltac:(lia) id0_len id0_nonzero HI (proj2 g_sep) (proj2 g_chunks) (v4 D) ltac:(intros n k; reflexivity) Hcf o_dest (g_short _ (or_intror (or_introl eq_refl))) (proj1 HF) (proj2 HF)) as (b & ix & H1 & H2 & _ & H3).
  exists b, ix. split; [exact H1|]. split; [exact H2|]. intros rfuel Hr. destruct (H3 rfuel Hr) as (f0 & H). destruct (H f0 (le_n f0)) as (w' & v & evs & A1 & A2 & _ & _ & A4 & A5). exists f0, w', v, evs. auto.
Qed.
Print Assumptions C95_old_refuted.

(** C100: a directory whose two entries lie in leaves of different generations. *)
From Verif Require Import Go GoProofs Layout LayoutProofs SpecLayout LeafProofs StructProofs PropsLayout KeyFmt KeyProofs Bolt Store StoreProofs SpecStore RangeProofs PropsStore PropsRange Session PropsSession IoUtil Recon PropsRecon PropsReconEx Crc Path.
From Verif Require Import PropsPath ToString Fs Recover SpecFs SpecContent SpecTree SpecDisk DiskProofs PropsDest PropsDisk PropsRescueNode Ls PropsLs PropsLsEx PropsLsDisk.
From Verif Require Import PropsRecoverEx PropsTreeEx PropsDiskEx PropsLsDiskEx SpecGen PropsGen PropsGenEx PropsGenLs.
From Coq Require Import List Permutation ZifyBool ZifyNat ZifyN.

(** the leaf with the entry of x (and the inodes) was written last *)
Definition h1 : list leaf_entry := [d_ino 256 0; d_dir 256 (NameHash s_y) 261 1 1 s_y].
Definition h2 : list leaf_entry := [d_dir 256 (NameHash s_x) 262 1 1 s_x; d_ino 261 3; d_inl 261 0 b_abc; d_ino 262 2; d_inl 262 0 (bz_s [120; 121])].
Definition h_blocks : list (list byte) := [g_leaf 7 5 h1; g_leaf 8 5 h2].
Definition h_iss : list (list insertion) := [g_items 7 5 h1; g_items 8 5 h2].
Definition h_is : list insertion := concat h_iss.
Definition d_y := mkdi 261 1 1 s_y.
Definition d_x := mkdi 262 1 1 s_x.
(** what the newest version of every item says, and what ls lists *)
Definition h_recent (d : Z) : list d_dir_item := if d =? 256 then [d_y; d_x] else [].
Definition h_listed (d : Z) : list d_dir_item := if d =? 256 then [d_y] else [].
Definition h_inodes (i : Z) : option d_inode := if i =? 256 then Some (mkino 0) else if i =? 261 then Some (mkino 3) else if i =? 262 then Some (mkino 2) else None.
Lemma h_lens : Forall (fun bl => zlen bl = 4096) h_blocks. Proof. repeat constructor; vm_compute; reflexivity. Qed.
Lemma h_ok : Forall2 (contributes id0 4096) h_blocks h_iss.
Proof.
  assert (H : forall g o es, leaf_ok (dhg g o (zlen es)) 4096 es (d_gap es) -> es <> [] -> o < 2^64 - 1 -> contributes id0 4096 (g_leaf g o es) (g_items g o es)) by (intros; apply c_leaf; auto; reflexivity).
  repeat (apply Forall2_cons; [apply H; [unfold leaf_ok; repeat split; try (apply fits_b); vm_compute; reflexivity|discriminate|reflexivity]|]); apply Forall2_nil.
Qed.
#[local] Opaque id0.
Lemma h_sep : separated h_is. Proof. apply separatedb_ok. vm_cast_no_check (eq_refl true). Qed.
Lemma h_chunks : seen_chunks h_is []. Proof. split; [|exact Logic.I]. set (g := seen_group h_is 3 228 256). vm_compute in g. subst g. apply Forall2_nil. Qed.
Lemma h_other d : d <> 256 -> group h_is 5 84 d = [].
Proof.
  intros H1. unfold group. assert (HF : forallb (fun i => negb (KType (i_key i) =? 84) || (ObjectID (i_key i) =? 256)) (tree_items h_is 5) = true) by (vm_cast_no_check (eq_refl true)).
  induction (tree_items h_is 5) as [|i l IH]; [reflexivity|]. cbn [forallb filter] in *. apply andb_prop in HF as [HF HF']. rewrite (IH HF').
  destruct ((KType (i_key i) =? 84) && (ObjectID (i_key i) =? d)) eqn:E; [|reflexivity]. exfalso. clear -HF E H1. lia.
Qed.
Lemma entry_for i x : i_data i = ser (dir_item_fields x) -> fits_items [x] = true -> item_for (sl (i_data i)) x.
Proof. intros E HX. unfold fits_items in HX. cbn [forallb] in HX. rewrite andb_true_r in HX. apply andb_prop in HX as [H1 H3]. rewrite E, <- (app_nil_r (ser _)). split; [apply carries_self, fits_b; exact H1|lia]. Qed.
Lemma h_listed_ok d : dir_holds (seen h_is []) 5 d (h_listed d).
Proof.
  split; [reflexivity|]. cbn [seen q_dirItems st_items]. unfold h_listed. destruct (d =? 256) eqn:E.
  - apply Z.eqb_eq in E. subst d. set (g := seen_group h_is 5 84 256). vm_compute in g. subst g. cbn [map row]. apply Forall2_cons; [|apply Forall2_nil]. cbn [snd]. apply entry_for; vm_compute; reflexivity.
  - unfold seen_group. rewrite h_other by lia. apply Forall2_nil.
Qed.
Lemma h_hashed : hashed h_is h_recent.
Proof.
  intros d. unfold h_recent. destruct (d =? 256) eqn:E; [|rewrite h_other by lia; apply Forall2_nil]. apply Z.eqb_eq in E. subst d. set (g := group h_is 5 84 256). vm_compute in g. subst g.
  repeat (apply Forall2_cons; [split; [apply entry_for; vm_compute; reflexivity|vm_compute; reflexivity]|]). apply Forall2_nil.
Qed.
Lemma h_inodes_ok : inodes_are (seen h_is []) 5 h_inodes.
Proof.
  change (inodes_are (table h_is []) 5 h_inodes). intros i. unfold h_inodes.
  destruct (i =? 256) eqn:E1; [apply Z.eqb_eq in E1; subst i; apply ino_ok; [vm_compute; reflexivity|vm_compute; reflexivity|vm_compute; intuition discriminate]|].
  destruct (i =? 261) eqn:E2; [apply Z.eqb_eq in E2; subst i; apply ino_ok; [vm_compute; reflexivity|vm_compute; reflexivity|vm_compute; intuition discriminate]|].
  destruct (i =? 262) eqn:E3; [apply Z.eqb_eq in E3; subst i; apply ino_ok; [vm_compute; reflexivity|vm_compute; reflexivity|vm_compute; intuition discriminate]|].
  cbn [table q_inode]. unfold item_at. assert (HF : forallb (fun i => negb (KType (i_key i) =? 1) || (ObjectID (i_key i) =? 256) || (ObjectID (i_key i) =? 261) || (ObjectID (i_key i) =? 262)) (tree_items h_is 5) = true) by (vm_cast_no_check (eq_refl true)).
  destruct (List.find _ (tree_items h_is 5)) as [x|] eqn:E; [|reflexivity]. exfalso. apply find_some in E as [Hx E]. rewrite forallb_forall in HF. specialize (HF x Hx). cbn beta in HF. unfold same_keyb in E. cbn [KType ObjectID KOffset] in E. clear -HF E E1 E2 E3. lia.
Qed.
Lemma h_plain : plain_volume h_recent h_listed.
Proof.
  intros dir. split; [unfold h_listed; destruct (dir =? 256); repeat constructor; intros []|]. intros d Hd. assert (H : d = d_y \/ d = d_x) by (unfold h_recent, h_listed in Hd; destruct (dir =? 256); cbn [In] in Hd; intuition congruence).
  destruct H as [-> | ->]; (split; [discriminate|reflexivity]).
Qed.
(** the newest version of every item says that the root directory holds y and x *)
Lemma h_holds : dir_holds (table h_is []) 5 256 [d_y; d_x].
Proof. split; [reflexivity|]. cbn [table q_dirItems st_items]. set (g := group h_is 5 84 256). vm_compute in g. subst g. cbn [map row]. repeat (apply Forall2_cons; [cbn [snd]; apply entry_for; vm_compute; reflexivity|]). apply Forall2_nil. Qed.
#[local] Opaque h_blocks h_is h_iss.
(** ... but "ls" lists y only, while "ls /x" finds x *)
Theorem C100_hidden_refuted : forall N rfuel, enough N ->
  let D := image_of 4096 h_blocks N in
  image_items id0 D 4096 h_is /\ dir_holds (table h_is []) 5 256 [d_y; d_x] /\ inodes_are (table h_is []) 5 h_inodes /\
  exists b ix, doScanFS true true PropsRecon.no_faults (file_dev D) 4096 id0 None = (Some b, XOk) /\ OpenReadOnly (Some b) = Ok (Some b, Some ix) /\
    ((length b + 1 < rfuel)%nat -> exists fuel, forall show,
      doListFiles no_time isort (FindDirItemForPath rfuel b (ix_Generation ix)) fuel (ix_queries rfuel b (ix_Generation ix)) false show [[x2f]; x2f :: s_x] =
      Ok (ls_line no_time h_inodes show d_x, [], ls_line no_time h_inodes show d_y)).
Proof.
  intros N rfuel HN D. destruct (blocks_image id0 h_blocks h_iss N HN h_lens ltac:(vm_compute; reflexivity) h_ok) as [HB HI]. fold D in HB, HI. change (concat h_iss) with h_is in HI.
  split; [exact HI|]. split; [exact h_holds|]. split; [exact h_inodes_ok|].
  destruct (C100_ls id0 D 4096 h_is [] h_recent h_listed h_inodes HB ltac:(lia) id0_len id0_nonzero HI h_sep h_chunks h_listed_ok h_inodes_ok h_hashed h_plain) as (b & ix & H1 & H2 & _ & H3).
  exists b, ix. split; [exact H1|]. split; [exact H2|]. intros Hr.
  assert (HX : forall show, exists f0, forall fuel, (f0 <= fuel)%nat -> doListFiles no_time isort (FindDirItemForPath rfuel b (ix_Generation ix)) fuel (ix_queries rfuel b (ix_Generation ix)) false show [[x2f]; x2f :: s_x] =
      Ok (ls_line no_time h_inodes show d_x, [], ls_line no_time h_inodes show d_y)).
  { intros show. destruct (H3 rfuel Hr no_time isort false show [[x2f]; x2f :: s_x] isort_sorter ltac:(discriminate)) as (f0 & texts & HT & H). exists f0. intros fuel Hf. rewrite (H fuel Hf). clear H H3 H1 H2 HI HB.
    assert (EW : map (shown_for (path_by h_recent h_listed)) [[x2f]; x2f :: s_x] = [Dir 256; One d_x]) by (vm_compute; reflexivity).
    rewrite EW in *. cbn [flat_map one_of dir_of missing_of app map concat] in *. rewrite app_nil_r.
    inversion HT as [|? t ? ts Ht HT']; subst. inversion HT'; subst. clear HT HT'. cbn [concat]. rewrite app_nil_r. f_equal. f_equal.
    apply (C61_text_unique no_time h_inodes show h_listed (fun d => proj1 (h_plain d)) false 256); [exact Ht|].
    pose proof (ls_text_dir no_time h_inodes show h_listed false 256 [d_y] [] (Permutation_refl _) ltac:(repeat constructor) (Forall2_nil _)) as T.
    cbn [combine filter map concat] in T. rewrite !app_nil_r in T. change (filter is_dir [d_y]) with (@nil d_dir_item) in T. cbn [combine map concat] in T. rewrite ?app_nil_r in T. exact T. }
  destruct (HX true) as [f1 H1']. destruct (HX false) as [f2 H2']. exists (Nat.max f1 f2). intros [|]; [apply H1'|apply H2']; lia.
Qed.
Print Assumptions C100_hidden_refuted.

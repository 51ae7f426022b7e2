(** C71: a concrete image: the directory a (257) with the file g (260), and the file f (258); the entry of f is
    stored under the hash of its name, the others are not. *)
From Verif Require Import Go GoProofs Layout LayoutProofs SpecLayout LeafProofs StructProofs PropsLayout KeyFmt KeyProofs Bolt Store StoreProofs SpecStore RangeProofs PropsStore PropsRange Session PropsSession IoUtil Recon PropsRecon PropsReconEx Crc Path.
From Verif Require Import PropsPath ToString Fs Recover SpecFs SpecContent SpecTree SpecDisk DiskProofs PropsDest PropsDisk PropsRescueNode Ls PropsLs PropsLsEx PropsLsDisk.
From Verif Require Import PropsRecoverEx PropsTreeEx PropsDiskEx.
From Coq Require Import List Permutation ZifyBool ZifyNat ZifyN.

Definition ls5 : list leaf_entry :=
  [d_ino 256 0; d_dir 256 100 257 1 2 s_a; d_dir 256 (NameHash s_f) 258 1 1 s_f; d_ino 257 0; d_dir 257 100 260 1 1 s_g; d_ino 258 12; d_ino 260 2; d_inl 260 0 (bz_s [120; 121])].
Definition ls_blocks : list (list byte) := [d_leaf 5 ls5; d_leaf 3 de3; d_data].
Definition ls_iss : list (list insertion) := [d_items 5 ls5; d_items 3 de3; []].
Definition ls_is : list insertion := concat ls_iss.
Definition ls_contents (d : Z) : list d_dir_item :=
  if d =? 256 then [mkdi 257 1 2 s_a; mkdi 258 1 1 s_f] else if d =? 257 then [mkdi 260 1 1 s_g] else [].
Definition ls_inodes (i : Z) : option d_inode :=
  if i =? 256 then Some (mkino 0) else if i =? 257 then Some (mkino 0) else if i =? 258 then Some (mkino 12) else if i =? 260 then Some (mkino 2) else None.
Lemma l_lens : Forall (fun bl => zlen bl = 4096) ls_blocks. Proof. repeat constructor; vm_compute; reflexivity. Qed.
Lemma l_ok : Forall2 (contributes id0 4096) ls_blocks ls_iss.
Proof.
  assert (H : forall o es, leaf_ok (dh o (zlen es)) 4096 es (d_gap es) -> es <> [] -> o < 2^64 - 1 -> contributes id0 4096 (d_leaf o es) (d_items o es)) by (intros; apply c_leaf; auto; reflexivity).
  repeat (apply Forall2_cons; [first [apply H; [unfold leaf_ok; repeat split; try (apply fits_b); vm_compute; reflexivity|discriminate|reflexivity]|apply c_foreign; left; vm_compute; discriminate]|]). apply Forall2_nil.
Qed.
#[local] Opaque id0.
Lemma l_gen i : In i ls_is -> i_gen i = 7.
Proof. assert (HF : forallb (fun i => i_gen i =? 7) ls_is = true) by (vm_cast_no_check (eq_refl true)). rewrite forallb_forall in HF. intros Hi. apply Z.eqb_eq, HF, Hi. Qed.
Lemma l_loc i loc : In i ls_is -> KType (i_key i) = 84 -> DirItem_Location (sl (i_data i)) = Ok loc -> ObjectID loc < 2^64 - 1.
Proof.
  assert (HF : forallb (fun i => match DirItem_Location (sl (i_data i)) with Ok loc => ObjectID loc <? 2^64 - 1 | _ => true end || negb (KType (i_key i) =? 84)) ls_is = true) by (vm_cast_no_check (eq_refl true)).
  rewrite forallb_forall in HF. intros Hi Ht Hl. specialize (HF i Hi). cbn beta in HF. rewrite Hl, Ht in HF. clear -HF. lia.
Qed.
Lemma l_type i : In i ls_is -> KType (i_key i) < 255.
Proof. assert (HF : forallb (fun i => KType (i_key i) <? 255) ls_is = true) by (vm_cast_no_check (eq_refl true)). rewrite forallb_forall in HF. intros Hi. apply Z.ltb_lt, HF, Hi. Qed.
Lemma l_sep i : In i ls_is -> (KType (i_key i) = 84 \/ KType (i_key i) = 108 \/ KType (i_key i) = 228) -> separate ls_is (i_owner i) (mkKey (ObjectID (i_key i)) (KType (i_key i)) (2^64 - 1)).
Proof.
  assert (HF : forallb (fun i => negb ((KType (i_key i) =? 84) || (KType (i_key i) =? 108) || (KType (i_key i) =? 228)) || sepb ls_is (i_owner i) (mkKey (ObjectID (i_key i)) (KType (i_key i)) (2^64 - 1))) ls_is = true) by (vm_cast_no_check (eq_refl true)).
  intros Hi Ht. apply sepb_ok. rewrite forallb_forall in HF. specialize (HF i Hi). cbn beta in HF. apply orb_prop in HF as [HF|HF]; [|exact HF]. exfalso. apply negb_true_iff, orb_false_iff in HF as [HF H3]. apply orb_false_iff in HF as [H1 H2]. clear -Ht H1 H2 H3. lia.
Qed.
Lemma l_sub : subvols ls_is = []. Proof. vm_compute. reflexivity. Qed.
#[local] Opaque ls_is.
Lemma l_orderly : orderly ls_is.
Proof.
  split; [exact l_loc|]. split; [intros i Hi; split; [rewrite (l_gen i Hi); lia|exact (l_type i Hi)]|]. split.
  - intros o t id Ht Hne. split.
    + intros i j Hi Hj. apply filter_In in Hi as [Hi _], Hj as [Hj _]. rewrite !l_gen; [reflexivity|apply (tree_in ls_is j o Hj)|apply (tree_in ls_is i o Hi)].
    + destruct (group ls_is o t id) as [|i l] eqn:E; [congruence|]. assert (Hi : In i (group ls_is o t id)) by (rewrite E; left; reflexivity). clear E l Hne.
      apply filter_In in Hi as [Hi Hk]. cbn beta in Hk. apply andb_prop in Hk as [Hk1 Hk2]. apply Z.eqb_eq in Hk1, Hk2. destruct (tree_in ls_is i o Hi) as [Hi' Ho].
      pose proof (l_sep i Hi') as H. rewrite Ho, Hk1, Hk2 in H. exact (H Ht).
  - rewrite l_sub. congruence.
Qed.
#[local] Transparent ls_is.
Lemma l_chunks : chunks_are ls_is d_cs.
Proof.
  split; [|split; [intros y []|exact Logic.I]]. set (g := group ls_is 3 228 256). vm_compute in g. subst g. apply Forall2_cons; [|apply Forall2_nil].
  split; [reflexivity|]. split; [|split; [vm_compute; reflexivity|vm_compute; split; discriminate]].
  apply carries_whole; [apply fits_b; vm_compute; reflexivity|vm_compute; reflexivity|vm_compute; reflexivity].
Qed.
(** the items of the tree, as type, object id and data *)
Definition short (i : insertion) : Z * Z * Z * list byte := (KType (i_key i), ObjectID (i_key i), KOffset (i_key i), i_data i).
Lemma group_other d : d <> 256 -> d <> 257 -> group ls_is 5 84 d = [].
Proof.
  intros H1 H2. unfold group. assert (HF : forallb (fun i => negb (KType (i_key i) =? 84) || (ObjectID (i_key i) =? 256) || (ObjectID (i_key i) =? 257)) (tree_items ls_is 5) = true) by (vm_cast_no_check (eq_refl true)).
  induction (tree_items ls_is 5) as [|i l IH]; [reflexivity|]. cbn [forallb filter] in *. apply andb_prop in HF as [HF HF']. rewrite (IH HF').
  destruct ((KType (i_key i) =? 84) && (ObjectID (i_key i) =? d)) eqn:E; [|reflexivity]. exfalso. clear -HF E H1 H2. lia.
Qed.
Lemma dir_ok is cs o d ds : Forall2 (fun i x => i_data i = ser (dir_item_fields x)) (group is o 84 d) ds -> fits_items ds = true -> dir_holds (table is cs) o d ds.
Proof.
  intros HF HX. split; [reflexivity|]. cbn [table q_dirItems st_items]. induction HF as [|i x l ds E HF IH]; [constructor|]. cbn [map]. unfold fits_items in HX. cbn [forallb] in HX. apply andb_prop in HX as [H1 H2]. apply andb_prop in H1 as [H1 H3].
  constructor; [|apply IH; exact H2]. cbn [row snd]. rewrite E, <- (app_nil_r (ser _)). split; [apply carries_self, fits_b; exact H1|lia].
Qed.
Lemma l_contents d : dir_holds (table ls_is d_cs) 5 d (ls_contents d).
Proof.
  apply dir_ok; [|unfold ls_contents; destruct (d =? 256); [vm_compute; reflexivity|destruct (d =? 257); vm_compute; reflexivity]].
  unfold ls_contents. destruct (d =? 256) eqn:E1; [apply Z.eqb_eq in E1; subst d; set (g := group ls_is 5 84 256); vm_compute in g; subst g; repeat (apply Forall2_cons; [vm_compute; reflexivity|]); apply Forall2_nil|].
  destruct (d =? 257) eqn:E2; [apply Z.eqb_eq in E2; subst d; set (g := group ls_is 5 84 257); vm_compute in g; subst g; repeat (apply Forall2_cons; [vm_compute; reflexivity|]); apply Forall2_nil|].
  rewrite group_other by lia. apply Forall2_nil.
Qed.
Lemma ino_ok is cs i d : item_data (item_at is 5 (mkKey i 1 0)) = Some (sl (ser (inode_fields d))) -> forallb fit1b (inode_fields d) = true -> inode_times_ok d -> has_inode (table is cs) 5 i d.
Proof. intros E HF HT. eexists. cbn [table q_inode]. rewrite E. split; [reflexivity|]. split; [|exact HT]. rewrite <- (app_nil_r (ser _)). apply carries_self, fits_b. exact HF. Qed.
Lemma l_inodes : inodes_are (table ls_is d_cs) 5 ls_inodes.
Proof.
  intros i. unfold ls_inodes.
  destruct (i =? 256) eqn:E1; [apply Z.eqb_eq in E1; subst i; apply ino_ok; [vm_compute; reflexivity|vm_compute; reflexivity|vm_compute; intuition discriminate]|].
  destruct (i =? 257) eqn:E2; [apply Z.eqb_eq in E2; subst i; apply ino_ok; [vm_compute; reflexivity|vm_compute; reflexivity|vm_compute; intuition discriminate]|].
  destruct (i =? 258) eqn:E3; [apply Z.eqb_eq in E3; subst i; apply ino_ok; [vm_compute; reflexivity|vm_compute; reflexivity|vm_compute; intuition discriminate]|].
  destruct (i =? 260) eqn:E4; [apply Z.eqb_eq in E4; subst i; apply ino_ok; [vm_compute; reflexivity|vm_compute; reflexivity|vm_compute; intuition discriminate]|].
  cbn [table q_inode]. unfold item_at. assert (HF : forallb (fun i => negb (KType (i_key i) =? 1) || (ObjectID (i_key i) =? 256) || (ObjectID (i_key i) =? 257) || (ObjectID (i_key i) =? 258) || (ObjectID (i_key i) =? 260)) (tree_items ls_is 5) = true) by (vm_cast_no_check (eq_refl true)).
  destruct (List.find _ (tree_items ls_is 5)) as [x|] eqn:E; [|reflexivity]. exfalso. apply find_some in E as [Hx E]. rewrite forallb_forall in HF. specialize (HF x Hx). cbn beta in HF. unfold same_keyb in E. cbn [KType ObjectID KOffset] in E. clear -HF E E1 E2 E3 E4. lia.
Qed.
Lemma l_plain : plain_tree ls_contents.
Proof.
  intros dir. unfold ls_contents at 1 2. destruct (dir =? 256); [|destruct (dir =? 257)].
  - split; [repeat constructor; cbn; intuition discriminate|]. intros d [<-|[<-|[]]]; (split; [discriminate|]); [discriminate|reflexivity].
  - split; [repeat constructor; intros []|]. intros d [<-|[]]. split; [discriminate|reflexivity].
  - split; [constructor|intros d []].
Qed.
Lemma l_acc : Acc (subdir ls_contents) 256.
Proof.
  constructor. intros c (d & Hd & HD & <-). cbn in Hd. destruct Hd as [<-|[<-|[]]]; [|discriminate]. constructor. intros c (d & Hd & HD2 & <-). cbn in Hd. destruct Hd as [<-|[]]. discriminate.
Qed.
#[local] Opaque ls_blocks ls_is d_cs ls_iss.
Lemma l_scan N : enough N -> let D := image_of 4096 ls_blocks N in big_enough D 4096 /\ image_items id0 D 4096 ls_is.
Proof. intros HN D. destruct (blocks_image id0 ls_blocks ls_iss N HN l_lens ltac:(vm_compute; reflexivity) l_ok) as [HB HI]. split; assumption. Qed.
(** ls -r / /nope a/g, after recon: the line of /a/g, a warning about /nope, the root's two lines and then those of a *)
Example C71_ex : forall N rfuel, enough N -> exists b ix, doScanFS true true PropsRecon.no_faults (file_dev (image_of 4096 ls_blocks N)) 4096 id0 None = (Some b, XOk) /\ OpenReadOnly (Some b) = Ok (Some b, Some ix) /\
  ((length b + 1 < rfuel)%nat -> exists fuel, doListFiles no_time isort (FindDirItemForPath rfuel b (ix_Generation ix)) fuel (ix_queries rfuel b (ix_Generation ix)) true true
      [[x2f]; x2f :: s_y; s_a ++ x2f :: s_g] =
    let line := ls_line no_time ls_inodes true in
    Ok (line (mkdi 260 1 1 s_g), [x2f :: s_y], (line (mkdi 258 1 1 s_f) ++ line (mkdi 257 1 2 s_a)) ++ (s_a ++ [x3a; x0a]) ++ line (mkdi 260 1 1 s_g))).
Proof.
  intros N rfuel HN. destruct (l_scan N HN) as [HB HI].
  destruct (C71_recon_then_ls id0 (image_of 4096 ls_blocks N) 4096 ls_is d_cs ls_contents ls_inodes HB ltac:(lia) id0_len id0_nonzero HI l_orderly l_chunks l_contents l_inodes l_plain) as (b & ix & H1 & H2 & _ & H3).
  exists b, ix. split; [exact H1|]. split; [exact H2|]. intros Hr.
  destruct (H3 rfuel Hr no_time isort true true [[x2f]; x2f :: s_y; s_a ++ x2f :: s_g] isort_sorter) as (f0 & texts & HT & H).
  { intros _ d Hd. assert (E : d = 256) by (vm_compute in Hd; intuition congruence). subst d. exact l_acc. }
  exists f0. rewrite (H f0 (le_n f0)). clear H H3 H1 H2 HI HB. cbv zeta.
  assert (EW : map (shown_for (path_entry ls_contents)) [[x2f]; x2f :: s_y; s_a ++ x2f :: s_g] = [Dir 256; Missing (x2f :: s_y); One (mkdi 260 1 1 s_g)]) by (vm_compute; reflexivity).
  rewrite EW in *. cbn [flat_map one_of dir_of missing_of app map concat] in *. rewrite app_nil_r.
  inversion HT as [|? t ? ts Ht HT']; subst. inversion HT'; subst. clear HT HT'. cbn [concat]. rewrite app_nil_r. f_equal. f_equal.
  apply (C61_text_unique no_time ls_inodes true ls_contents (fun d => proj1 (l_plain d)) true 256); [exact Ht|].
  assert (HP : ls_sorted [mkdi 258 1 1 s_f; mkdi 257 1 2 s_a] /\ ls_sorted [mkdi 260 1 1 s_g]).
  { split; repeat constructor. intros [(A & _)|(A & _)]; discriminate. }
  pose proof (ls_text_dir no_time ls_inodes true ls_contents true 257 [mkdi 260 1 1 s_g] [] (Permutation_refl _) (proj2 HP) (Forall2_nil _)) as T1.
  pose proof (ls_text_dir no_time ls_inodes true ls_contents true 256 [mkdi 258 1 1 s_f; mkdi 257 1 2 s_a] _ (perm_swap _ _ _) (proj1 HP) (Forall2_cons (mkdi 257 1 2 s_a) _ T1 (Forall2_nil _))) as T2.
  change (filter is_dir [mkdi 258 1 1 s_f; mkdi 257 1 2 s_a]) with [mkdi 257 1 2 s_a] in T2. change (filter is_dir [mkdi 260 1 1 s_g]) with (@nil d_dir_item) in T2.
  cbn [combine map concat fst snd] in T2. rewrite !app_nil_r in T2. exact T2.
Qed.
Print Assumptions C71_ex.

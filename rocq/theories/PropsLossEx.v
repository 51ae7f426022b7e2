(** C76: the volume of C67 with metadata missing from the index. *)
From Verif Require Import Go GoProofs Layout KeyFmt KeyProofs Bolt Store MkIndex PropsPath ToString Fs Recover RecoverProofs SpecFs SpecContent PathProofs PropsRecoverFile PropsRecoverEx SpecTree SpecDamage TreeProofs TreeRun TreeFull TreeLegible PropsTree PropsTreeEx PropsDamage PropsDamageEx.
From Coq Require Import ZifyBool ZifyNat ZifyN.
Ltac Zify.zify_post_hook ::= Z.div_mod_to_equations.

Definition is_key (o : Z) (k : Key) (i : item) : bool := let '(o', k', _, _) := i in (o =? o') && (ObjectID k =? ObjectID k') && (KType k =? KType k') && (KOffset k =? KOffset k').
Definition without (l : list (Z * Key)) (is : list item) : list item := filter (fun i => negb (existsb (fun x => is_key (fst x) (snd x) i) l)) is.
(** lost: the inode item and the last extent of f, the target of l, the directory entry s and with it the name of subvolume 256 *)
Definition lost : list (Z * Key) := [(5, mkKey 258 1 0); (5, mkKey 258 108 7); (5, mkKey 259 108 0); (5, mkKey 256 84 400)].
Definition ql : queries := ixq (without lost vol_items).
Definition l_tree : entries :=
  [(s_a, TDir [(s_g, TFile (bz_s [120; 121]))]); (s_f, TFile []); (s_l, TLink []);
   (subvol_prefix ++ dec 256, TDir [(s_x, TFile b_abc)]); (subvol_prefix ++ dec 257, TDir [(s_y, TFile [])])].
Lemma lsh_g : file_shows ql ex_dev 5 260 (bz_s [120; 121]).
Proof.
  exists [Inline 0 (bz_s [120; 121])]. eexists. split; [st (st_items (q_extents ql 5 260)); apply Forall2_cons; [left; eexists; split; [vm_compute; reflexivity|split; vm_compute; reflexivity]|apply Forall2_nil]|].
  split; [repeat constructor; vm_compute; reflexivity|]. split; [vm_compute; reflexivity|]. split; [vm_compute; reflexivity|]. split; [vm_compute; reflexivity|]. split; [vm_compute; reflexivity|]. intros j Hj. bytes j Hj 2.
Qed.
Lemma lsh_x : file_shows ql ex_dev 256 259 b_abc.
Proof.
  exists [Inline 0 b_abc]. eexists. split; [st (st_items (q_extents ql 256 259)); apply Forall2_cons; [left; eexists; split; [vm_compute; reflexivity|split; vm_compute; reflexivity]|apply Forall2_nil]|].
  split; [repeat constructor; vm_compute; reflexivity|]. split; [vm_compute; reflexivity|]. split; [vm_compute; reflexivity|]. split; [vm_compute; reflexivity|]. split; [vm_compute; reflexivity|]. intros j Hj. bytes j Hj 3.
Qed.
Lemma lsh_y : file_shows ql ex_dev 257 259 [].
Proof.
  exists []. eexists. split; [st (st_items (q_extents ql 257 259)); apply Forall2_nil|].
  split; [constructor|]. split; [vm_compute; reflexivity|]. split; [vm_compute; reflexivity|]. split; [vm_compute; reflexivity|]. split; [vm_compute; reflexivity|]. intros j Hj. change (zlen []) with 0 in Hj. lia.
Qed.
Lemma lsh_f : ask_file (listed ql ex_dev) 5 258 [].
Proof.
  assert (HN : q_inode ql 5 258 = Ok None) by (vm_compute; reflexivity). split.
  - split; [|split; [vm_compute; reflexivity|left; exact HN]]. exists [Disk 0 4 23; Hole 4 3].
    set (l := st_items (q_extents ql 5 258)). assert (HE : exists k1 e1 k2 e2, l = [(k1, e1); (k2, e2)] /\ is_extent ql (k1, e1) (Disk 0 4 23) /\ is_extent ql (k2, e2) (Hole 4 3)).
    { vm_compute in l. subst l. do 4 eexists. split; [reflexivity|]. split.
      - right; right. exists 1, 4, 1002, 1, 22, 1. repeat split; try (vm_compute; reflexivity); discriminate.
      - right; left. exists 1, 3. repeat split; try (vm_compute; reflexivity). discriminate. }
    destruct HE as (k1 & e1 & k2 & e2 & -> & A & B). split; [apply Forall2_cons; [exact A|apply Forall2_cons; [exact B|apply Forall2_nil]]|].
    clear. apply Forall_cons; [|apply Forall_cons; [|apply Forall_nil]]; (split; [vm_compute; reflexivity|]); intros off n H; [discriminate H|]. assert (E : n = 3) by congruence. clear -E. lia.
  - intros c' (xs & it & _ & _ & _ & H & _). congruence.
Qed.
Lemma lsh_l : ask_link (listed ql ex_dev) 5 259 [].
Proof.
  assert (HN : q_extent0 ql 5 259 = Ok None) by (vm_compute; reflexivity). split; [left; exact HN|]. intros t' (e & H & _). congruence.
Qed.
Lemma l_lists : volume_lists ql ex_dev l_tree.
Proof.
  exists (firstn 3 l_tree), [(5, 256); (5, 257)], (skipn 3 l_tree). split; [|split; [|split; [|split; [|split]]]].
  - apply (shows_dir ql (listed ql ex_dev) 5 256 (firstn 3 l_tree) [(5, 257)]); [vm_compute; reflexivity|]. st (st_items (q_dirItems ql 5 256)).
    apply (shows_sub ql (listed ql ex_dev) 5 _ _ _ s_a 5 257 [(s_g, TFile (bz_s [120; 121]))] _ [(5, 257)] []).
    + vm_compute; reflexivity.
    + nd. right. split; [vm_compute; discriminate|split; vm_compute; reflexivity].
    + apply (shows_dir ql (listed ql ex_dev) 5 257 _ []); [vm_compute; reflexivity|]. st (st_items (q_dirItems ql 5 257)). eapply shows_file; [sys|vm_compute; discriminate|exact (shown_listed _ _ _ _ _ lsh_g)|nm|intros []|apply shows_nil].
    + nm.
    + vm_compute. intuition discriminate.
    + eapply shows_file; [sys|vm_compute; discriminate|exact lsh_f|nm|vm_compute; intuition discriminate|].
      eapply shows_link; [sys|vm_compute; discriminate|exact lsh_l|nm|vm_compute; intuition discriminate|].
      eapply shows_other; [sys|vm_compute; discriminate..|apply shows_nil].
  - repeat constructor; vm_compute; intuition discriminate.
  - st (st_items (q_subvolumes ql)). change (skipn 3 l_tree) with [(subvol_prefix ++ dec 256, TDir [(s_x, TFile b_abc)]); (subvol_prefix ++ dec 257, TDir [(s_y, TFile [])])].
    apply (subs_new ql (listed ql ex_dev) _ _ _ _ 256 _ _ [(256, 256)]); [vm_compute; reflexivity|reflexivity|vm_compute; intuition discriminate| |vm_compute; intuition (subst; discriminate)|repeat constructor; intros []|vm_compute; intuition discriminate|].
    { apply (shows_dir ql (listed ql ex_dev) 256 256 _ []); [vm_compute; reflexivity|]. st (st_items (q_dirItems ql 256 256)). eapply shows_file; [sys|vm_compute; discriminate|exact (shown_listed _ _ _ _ _ lsh_x)|nm|intros []|apply shows_nil]. }
    apply (subs_new ql (listed ql ex_dev) _ _ [] _ 257 _ _ [(257, 256)]); [vm_compute; reflexivity|reflexivity|vm_compute; intuition discriminate| |vm_compute; intuition (subst; discriminate)|repeat constructor; intros []|intros []|apply subs_nil].
    apply (shows_dir ql (listed ql ex_dev) 257 256 _ []); [vm_compute; reflexivity|]. st (st_items (q_dirItems ql 257 256)). eapply shows_file; [sys|vm_compute; discriminate|exact (shown_listed _ _ _ _ _ lsh_y)|nm|intros []|apply shows_nil].
  - vm_compute; reflexivity.
  - reflexivity.
  - intros n Hn. change (map fst (skipn 3 l_tree)) with [subvol_prefix ++ dec 256; subvol_prefix ++ dec 257]. change (map fst (firstn 3 l_tree)) with [s_a; s_f; s_l] in Hn. intros [<-|[<-|[]]]; vm_compute in Hn; intuition discriminate.
Qed.
Lemma l_short : paths_short (abs1 s_d) l_tree.
Proof. intros r Hr. apply in_all_paths in Hr. revert r Hr. apply Forall_forall. vm_compute. repeat constructor. Qed.
Lemma l_empty : part_of_tree F_d [s_d] (TDir l_tree) /\ replaceable false F_d [s_d] (TDir l_tree).
Proof.
  assert (G : forall r nd, look F_d ([s_d] ++ r) = Some nd -> r = [] /\ nd = NDir).
  { intros r nd H. assert (H1 : In ([s_d] ++ r) (map fst F_d)) by (apply look_In; [discriminate|congruence]). destruct H1 as [H1|[H1|[]]]; [|discriminate]. destruct r; [|discriminate]. vm_compute in H. injection H as <-. auto. }
  split; [|right]; intros r nd H; destruct (G r nd H) as [-> ->]; [exists NDir; auto|reflexivity].
Qed.
(** everything of which nothing is lost arrives, also behind the incomplete file and link, and
    subvolume 256 arrives under a made-up name *)
Example C76_ex cfuel : 2^64 < Z.of_nat cfuel -> exists fuel w' v,
  doRecoverFiles fuel cfuel E0 (file_reader ex_dev) ql false (abs1 s_d) (w0 F_d) = (w', Ret (true, v)) /\
  look (w_fs w') [s_d; s_a; s_g] = Some (NFile (bz_s [120; 121])) /\
  look (w_fs w') [s_d; subvol_prefix ++ dec 256; s_x] = Some (NFile b_abc) /\
  part_of_tree (w_fs w') [s_d] (TDir l_tree).
Proof.
  intros HF. assert (HDm : damaged (fun _ => False) ex_dev (file_reader ex_dev)) by (destruct (file_reader_good ex_dev) as [A B]; split; [exact A|intros n off H1 H2 H3 _; exact (B n off H1 H2 H3)]).
  destruct (C76_incomplete_index_partial cfuel E0 (file_reader ex_dev) ex_dev ql _ false (abs1 s_d) (w0 F_d) [s_d] l_tree ltac:(intros n k; reflexivity) HDm ltac:(vm_compute; reflexivity) HF l_lists vol_dest l_short (proj1 l_empty) (proj2 l_empty)) as (f0 & H).
  destruct (H f0 (le_n f0)) as (w' & v & H1 & H2 & H3 & _). exists f0, w', v. split; [exact H1|].
  assert (Hs : forall o i, file_safe ql (fun _ => False) o i) by (intros o i xs off n src p _ _ _ []).
  split; [|split; [|exact H3]].
  - refine (H2 [s_a; s_g] _). apply vol_main. eapply intact_entry.
    { it (st_items (q_dirItems ql FSTreeObjectID FirstFreeObjectID)). left. reflexivity. }
    apply (intact_sub _ _ 5 _ s_a 5 257); [vm_compute; reflexivity|nd; right; split; [discriminate|split; reflexivity]|]. eapply intact_entry.
    { it (st_items (q_dirItems ql 5 257)). left. reflexivity. }
    eapply intact_file; [sys|vm_compute; discriminate|]. split; [exists (bz_s [120; 121]); exact lsh_g|apply Hs].
  - refine (H2 [subvol_prefix ++ dec 256; s_x] _). eapply (vol_extra _ _ _ _ (subvol_prefix ++ dec 256)).
    { it (st_items (q_subvolumes ql)). left. reflexivity. }
    { vm_compute. reflexivity. }
    { intros k' di. it (st_items (q_dirItems ql FSTreeObjectID FirstFreeObjectID)). intros HI. repeat (destruct HI as [HI|HI]; [assert (X : forall (a c : list byte) (b d : slice), (a, b) = (c, d) -> b = d) by congruence; apply X in HI; subst di; vm_compute; discriminate|]). destruct HI. }
    change (reaches ql (complete ql ex_dev (fun _ => False)) 256 256 [s_x]). eapply intact_entry.
    { it (st_items (q_dirItems ql 256 256)). left. reflexivity. }
    eapply intact_file; [sys|vm_compute; discriminate|]. split; [exists b_abc; exact lsh_x|apply Hs].
Qed.
(** With the only chunk item gone a file with an extent on the device stops everything: link l, of which nothing is lost, is not restored. *)
Definition qn : queries := ixq (without [(3, mkKey 256 228 1000)] vol_items).
Theorem C76_refuted m : vol_reaches qn (complete qn ex_dev (fun _ => False)) [s_l] /\
  exists w', doRecoverFiles 100 (100 + m) E0 (file_reader ex_dev) qn false (abs1 s_d) (w0 F_d) = (w', OPanic) /\ look (w_fs w') [s_d; s_l] = None.
Proof.
  split.
  - apply vol_main. eapply intact_entry.
    { it (st_items (q_dirItems qn FSTreeObjectID FirstFreeObjectID)). right. right. left. reflexivity. }
    eapply intact_link; [sys|vm_compute; discriminate|]. split; [|unfold good_link, complete, link_safe; intros; intros []].
    exists (bz_s [97; 47; 103]). eexists. split; [vm_compute; reflexivity|]. split; [left; split; vm_compute; reflexivity|vm_compute; reflexivity].
  - eexists. split; vm_compute; reflexivity.
Qed.
Print Assumptions C76_ex.
Print Assumptions C76_refuted.

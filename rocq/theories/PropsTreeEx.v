(** C67, C51: a concrete volume with directories, an inline file, a file with a disk
    extent, a hole and an inline extent, a link, a nested subvolume and an orphaned one. *)
From Verif Require Import Go GoProofs Layout LayoutProofs SpecLayout StructProofs PropsLayout KeyFmt KeyProofs Bolt Store StoreProofs SpecStore RangeProofs PropsStore PropsRange MkIndex.
From Verif Require Import PropsPath ToString Fs Recover RecoverProofs SpecFs SpecContent PathProofs PropsRecoverPaths FsProofs PropsRecoverSafe PropsRecoverDfs PropsRecoverFile PropsRecoverErr PropsRecoverLink PropsRecoverEx SpecTree TreeProofs TreeRun TreeFull PropsTree.
From Coq Require Import ZifyBool ZifyNat ZifyN.
Ltac Zify.zify_post_hook ::= Z.div_mod_to_equations.

Definition s_s : comp := [x73].
Definition vol_items : list item := ex_items ++
  [(1, mkKey 256 132 0, 7, itemv []); (1, mkKey 257 132 0, 7, itemv []); dir_at 5 256 400 (mkdi 256 132 2 s_s); dir_at 5 256 500 (mkdi 270 1 3 s_y);
   dir_at 256 256 100 (mkdi 259 1 1 s_x); irec 256 259 3; inl 256 259 0 b_abc; dir_at 257 256 100 (mkdi 259 1 1 s_y); irec 257 259 0;
   (* other items, so that no iteration runs into the next tree (C22, C28) *) (7, mkKey (2^64 - 10) 128 0, 7, itemv []); (256, mkKey 259 248 0, 7, itemv [])].
Definition qv : queries := ixq vol_items.
Definition vol_tree : entries :=
  [(s_a, TDir [(s_g, TFile (bz_s [120; 121]))]); (s_f, TFile (bz_s [65; 66; 67; 68; 0; 0; 0; 49; 50; 51; 0; 0])); (s_l, TLink (bz_s [97; 47; 103]));
   (s_s, TDir [(s_x, TFile b_abc)]); (subvol_prefix ++ dec 257, TDir [(s_y, TFile [])])].
Ltac nm := split; [split; [discriminate|split; [discriminate|split; [discriminate|vm_compute; intuition discriminate]]]|split; [vm_compute; intuition discriminate|vm_compute; discriminate]].
Ltac st l := let x := fresh "l" in set (x := l); vm_compute in x; subst x.
Ltac sys := split; [vm_compute; reflexivity|split; vm_compute; reflexivity].
Tactic Notation "bytes" ident(j) ident(H) integer(n) :=
  let m := fresh in let Hm := fresh in remember (Z.to_nat j) as m eqn:Hm; assert (j = Z.of_nat m) as -> by lia; clear Hm; unfold zlen in H;
  do n (destruct m as [|m]; [vm_compute; reflexivity|]); cbn in H; lia.
Lemma sh_g : file_shows qv ex_dev 5 260 (bz_s [120; 121]).
Proof.
  exists [Inline 0 (bz_s [120; 121])]. eexists. split; [st (st_items (q_extents qv 5 260)); apply Forall2_cons; [left; eexists; split; [vm_compute; reflexivity|split; vm_compute; reflexivity]|apply Forall2_nil]|].
  split; [repeat constructor; vm_compute; reflexivity|]. split; [vm_compute; reflexivity|]. split; [vm_compute; reflexivity|]. split; [vm_compute; reflexivity|]. split; [vm_compute; reflexivity|]. intros j Hj. bytes j Hj 2.
Qed.
Lemma sh_x : file_shows qv ex_dev 256 259 b_abc.
Proof.
  exists [Inline 0 b_abc]. eexists. split; [st (st_items (q_extents qv 256 259)); apply Forall2_cons; [left; eexists; split; [vm_compute; reflexivity|split; vm_compute; reflexivity]|apply Forall2_nil]|].
  split; [repeat constructor; vm_compute; reflexivity|]. split; [vm_compute; reflexivity|]. split; [vm_compute; reflexivity|]. split; [vm_compute; reflexivity|]. split; [vm_compute; reflexivity|]. intros j Hj. bytes j Hj 3.
Qed.
Lemma sh_y : file_shows qv ex_dev 257 259 [].
Proof.
  exists []. eexists. split; [st (st_items (q_extents qv 257 259)); apply Forall2_nil|].
  split; [constructor|]. split; [vm_compute; reflexivity|]. split; [vm_compute; reflexivity|]. split; [vm_compute; reflexivity|]. split; [vm_compute; reflexivity|]. intros j Hj. change (zlen []) with 0 in Hj. lia.
Qed.
Lemma sh_f : file_shows qv ex_dev 5 258 (bz_s [65; 66; 67; 68; 0; 0; 0; 49; 50; 51; 0; 0]).
Proof.
  exists [Disk 0 4 23; Hole 4 3; Inline 7 (bz_s [49; 50; 51])]. eexists. split.
  - set (l := st_items (q_extents qv 5 258)). assert (HE : exists k1 e1 k2 e2 k3 e3, l = [(k1, e1); (k2, e2); (k3, e3)] /\
      is_extent qv (k1, e1) (Disk 0 4 23) /\ is_extent qv (k2, e2) (Hole 4 3) /\ is_extent qv (k3, e3) (Inline 7 (bz_s [49; 50; 51]))).
    { vm_compute in l. subst l. do 6 eexists. split; [reflexivity|]. split; [|split].
      - right; right. exists 1, 4, 1002, 1, 22, 1. repeat split; try (vm_compute; reflexivity); discriminate.
      - right; left. exists 1, 3. repeat split; try (vm_compute; reflexivity). discriminate.
      - left. eexists. repeat split; vm_compute; reflexivity. }
    destruct HE as (k1 & e1 & k2 & e2 & k3 & e3 & -> & A & B & C). apply Forall2_cons; [exact A|apply Forall2_cons; [exact B|apply Forall2_cons; [exact C|apply Forall2_nil]]].
  - split; [repeat constructor; vm_compute; (reflexivity || discriminate)|]. split; [vm_compute; reflexivity|]. split; [vm_compute; reflexivity|]. split; [vm_compute; reflexivity|]. split; [vm_compute; reflexivity|]. intros j Hj. bytes j Hj 12.
Qed.
Lemma sh_l : link_shows qv ex_dev 5 259 (bz_s [97; 47; 103]).
Proof. eexists. split; [vm_compute; reflexivity|]. split; [left; split; vm_compute; reflexivity|vm_compute; reflexivity]. Qed.
Ltac nd := eexists; eexists; eexists; split; [vm_compute; reflexivity|]; split; [vm_compute; reflexivity|]; split; [vm_compute; reflexivity|]; split; [vm_compute; reflexivity|].
Lemma vol_shows : volume_shows qv ex_dev vol_tree.
Proof.
  exists (firstn 4 vol_tree), [(5, 256); (5, 257); (256, 256)], (skipn 4 vol_tree). split; [|split; [|split; [|split; [|split]]]].
  - apply (shows_dir qv (shown qv ex_dev) 5 256 (firstn 4 vol_tree) [(5, 257); (256, 256)]); [vm_compute; reflexivity|]. st (st_items (q_dirItems qv 5 256)).
    apply (shows_sub qv (shown qv ex_dev) 5 _ _ _ s_a 5 257 [(s_g, TFile (bz_s [120; 121]))] _ [(5, 257)] [(256, 256)]).
    + vm_compute; reflexivity.
    + nd. right. split; [vm_compute; discriminate|split; vm_compute; reflexivity].
    + apply (shows_dir qv (shown qv ex_dev) 5 257 _ []); [vm_compute; reflexivity|]. st (st_items (q_dirItems qv 5 257)). eapply shows_file; [sys|vm_compute; discriminate|exact sh_g|nm|intros []|apply shows_nil].
    + nm.
    + vm_compute. intuition discriminate.
    + eapply shows_file; [sys|vm_compute; discriminate|exact sh_f|nm|vm_compute; intuition discriminate|].
      eapply shows_link; [sys|vm_compute; discriminate|exact sh_l|nm|vm_compute; intuition discriminate|].
      apply (shows_sub qv (shown qv ex_dev) 5 _ _ _ s_s 256 256 [(s_x, TFile b_abc)] _ [(256, 256)] []).
      * vm_compute; reflexivity.
      * nd. left. split; vm_compute; reflexivity.
      * apply (shows_dir qv (shown qv ex_dev) 256 256 _ []); [vm_compute; reflexivity|]. st (st_items (q_dirItems qv 256 256)). eapply shows_file; [sys|vm_compute; discriminate|exact sh_x|nm|intros []|apply shows_nil].
      * nm.
      * intros [].
      * eapply shows_other; [sys|vm_compute; discriminate..|apply shows_nil].
  - repeat constructor; vm_compute; intuition discriminate.
  - st (st_items (q_subvolumes qv)). apply subs_seen; [vm_compute; auto|]. change (skipn 4 vol_tree) with [(subvol_prefix ++ dec 257, TDir [(s_y, TFile [])])].
    apply (subs_new qv (shown qv ex_dev) _ _ [] _ 257 _ _ [(257, 256)]); [vm_compute; reflexivity|reflexivity|vm_compute; intuition discriminate| |vm_compute; intuition (subst; discriminate)|repeat constructor; intros []|intros []|apply subs_nil].
    apply (shows_dir qv (shown qv ex_dev) 257 256 _ []); [vm_compute; reflexivity|]. st (st_items (q_dirItems qv 257 256)). eapply shows_file; [sys|vm_compute; discriminate|exact sh_y|nm|intros []|apply shows_nil].
  - vm_compute; reflexivity.
  - reflexivity.
  - intros n Hn. change (map fst (skipn 4 vol_tree)) with [subvol_prefix ++ dec 257]. change (map fst (firstn 4 vol_tree)) with [s_a; s_f; s_l; s_s] in Hn. intros [<-|[]]. vm_compute in Hn. intuition discriminate.
Qed.
(** finite trees: checking all paths *)
Fixpoint all_paths (t : tree) : list cpath :=
  [] :: match t with TDir kids => flat_map (fun e => map (cons (fst e)) (all_paths (snd e))) kids | _ => [] end.
Lemma in_all_paths : forall r t, tree_at t r <> None -> In r (all_paths t).
Proof.
  induction r as [|n r IH]; intros t H; [destruct t; left; reflexivity|]. destruct t as [c|l|kids]; cbn [tree_at] in H; try congruence. destruct (pick kids n) as [t|] eqn:EP; [|congruence].
  right. apply in_flat_map. exists (n, t). split; [exact (pick_In _ _ _ EP)|]. apply in_map. apply IH. exact H.
Qed.
Lemma assoc_In F p : assoc F p <> None -> In p (map fst F).
Proof. induction F as [|[x n] F IH]; cbn [assoc map fst In]; [congruence|]. destruct (cpath_dec x p); auto. Qed.
Lemma look_In F p : p <> [] -> look F p <> None -> In p (map fst F).
Proof. destruct p; [congruence|]. intros _. apply assoc_In. Qed.
Definition F_d : fs := [([s_d], NDir); ([s_o], NFile [x00])].
Lemma vol_dest : plain_dest E0 F_d (abs1 s_d) [s_d].
Proof.
  split; [|split; [vm_compute; reflexivity|split; [vm_compute; intuition discriminate|split; [vm_compute; reflexivity|split; [vm_compute; reflexivity|vm_compute; repeat constructor; discriminate]]]]].
  intros p c H. apply look_In in H; [|destruct p; discriminate]. destruct p as [|x p]; [reflexivity|]. destruct H as [H|[H|[]]]; destruct p; discriminate.
Qed.
Lemma vol_short : paths_short (abs1 s_d) vol_tree.
Proof.
  intros r Hr. apply in_all_paths in Hr. revert r Hr. apply Forall_forall. vm_compute. repeat constructor.
Qed.
Lemma vol_empty : part_of_tree F_d [s_d] (TDir vol_tree) /\ replaceable false F_d [s_d] (TDir vol_tree).
Proof.
  assert (G : forall r nd, look F_d ([s_d] ++ r) = Some nd -> r = [] /\ nd = NDir).
  { intros r nd H. assert (H1 : In ([s_d] ++ r) (map fst F_d)) by (apply look_In; [discriminate|congruence]). destruct H1 as [H1|[H1|[]]]; [|discriminate]. destruct r; [|discriminate]. vm_compute in H. injection H as <-. auto. }
  split; [|right]; intros r nd H; destruct (G r nd H) as [-> ->]; [exists NDir; auto|reflexivity].
Qed.
(** C67: the whole volume, and nothing else, into /d *)
Example C67_ex cfuel : 2^64 < Z.of_nat cfuel -> exists fuel w' v evs,
  doRecoverFiles fuel cfuel E0 (file_reader ex_dev) qv false (abs1 s_d) (w0 F_d) = (w', Ret (true, v)) /\
  holds_tree (w_fs w') [s_d] (TDir vol_tree) /\ (forall p, ~ at_or_below [s_d] p -> look (w_fs w') p = look F_d p) /\
  w_log w' = evs ++ [] /\ (forall k s, ~ In (EvWarn k s) evs).
Proof.
  intros HF. destruct (C67_whole_tree cfuel E0 (file_reader ex_dev) ex_dev qv false (abs1 s_d) (w0 F_d) [s_d] vol_tree ltac:(intros n k; reflexivity) (file_reader_good ex_dev) ltac:(vm_compute; reflexivity) HF vol_shows vol_dest vol_short (proj1 vol_empty) (proj2 vol_empty)) as (f0 & H).
  destruct (H f0 (le_n f0)) as (w' & v & evs & H'). exists f0, w', v, evs. exact H'.
Qed.
(** C51, C67: killed in the middle of the first write to file f (one byte is written), then run again with --clobber *)
Definition E_kill : env := mkEnv [] (fun n k => match k with OWrite => if Nat.eqb n 11 then FCrash 1 else FNone | _ => FNone end).
Definition vol_killed := doRecoverFiles 10 100 E_kill (file_reader ex_dev) qv false (abs1 s_d) (w0 F_d).
Example vol_killed_run : snd vol_killed = OCrash /\ look (w_fs (fst vol_killed)) [s_d; s_f] = Some (NFile [x41]) /\ look (w_fs (fst vol_killed)) [s_d; s_a; s_g] = Some (NFile (bz_s [120; 121])).
Proof. vm_compute. repeat split. Qed.
Example C51_tree_ex cfuel : 2^64 < Z.of_nat cfuel -> exists fuel w' v,
  doRecoverFiles fuel cfuel E0 (file_reader ex_dev) qv true (abs1 s_d) (fst vol_killed) = (w', Ret (true, v)) /\
  holds_tree (w_fs w') [s_d] (TDir vol_tree) /\ (forall p, ~ at_or_below [s_d] p -> look (w_fs w') p = look F_d p).
Proof.
  intros HF. assert (HK : doRecoverFiles 10 100 E_kill (file_reader ex_dev) qv false (abs1 s_d) (w0 F_d) = (fst vol_killed, OCrash)) by (unfold vol_killed; vm_compute; reflexivity).
  assert (HC : forall n k m, k = OStat \/ k = OLstat \/ k = OMkdir -> e_faults E_kill n k <> FErr m) by (intros n k m [->|[->| ->]]; discriminate).
  destruct (C51_rerun_clobber 10 100 E_kill (file_reader ex_dev) false cfuel E0 (file_reader ex_dev) ex_dev qv (abs1 s_d) (w0 F_d) (fst vol_killed) OCrash [s_d] vol_tree eq_refl HC ltac:(intros n k; reflexivity) (file_reader_good ex_dev) ltac:(vm_compute; reflexivity) HF vol_shows vol_dest vol_short (proj1 vol_empty) HK) as (f0 & H).
  destruct (H f0 (le_n f0)) as (w' & v & H'). exists f0, w', v. exact H'.
Qed.

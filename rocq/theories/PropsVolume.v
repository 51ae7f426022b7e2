(** C93: a written volume comes back: recon and then recover, mount or ls on an image that carries the
    items of a volume (SpecVolume). *)
From Verif Require Import Go GoProofs Layout LayoutProofs SpecLayout KeyFmt KeyProofs Bolt Store StoreProofs SpecStore Session PropsSession IoUtil Crc PropsCrc Recon ReconCmd PropsRecon PropsReconEx RangeItems.
From Verif Require Import PropsPath ToString Fs Recover RecoverProofs SpecFs SpecContent PathProofs PropsRecoverPaths PropsRecoverDfs PropsRecoverFile PropsRecoverEx SpecTree TreeRun TreeFull SpecDisk DiskProofs PropsDest PropsDisk Rescue PropsRescueRead PropsRescueNode SpecMount PropsMount PropsMountDisk.
From Verif Require Import Path Ls PropsLs PropsLsEx PropsLsDisk Uuid PropsUuid Cli SpecCli PropsCli PropsWork SpecVolume VolumeProofs VolumeLs.
From Coq Require Import List Permutation ZifyBool ZifyNat ZifyN Sorting.Sorted.
From Verif Require Import Go.
Ltac Zify.zify_post_hook ::= Z.div_mod_to_equations.

(** the image [D] of a volume, given to recon with the id of its file system *)
Definition volume_image (id D : list byte) (bs : Z) (attrs : Z -> d_inode) (V : vtree) : Prop :=
  exists f c is, image_items id D bs is /\ sound_volume attrs D f c V /\ sound_chunk f c /\ carries_volume attrs f c is V.

Lemma top_dir attrs D f c V : sound_volume attrs D f c V -> exists kids, V = VDir 256 kids.
Proof. intros (H1 & H2 & _). destruct V as [i b|i t|i kids]; try discriminate H2. cbn [v_ino] in H1. subst i. exists kids. reflexivity. Qed.
Lemma tree_kids i kids : tree_of (VDir i kids) = TDir (map kid_tree kids). Proof. reflexivity. Qed.

Theorem C93_recover : forall o1 h g1 t id a img D attrs V dest P,
  no_trouble o1 -> h_dev h img = Some (file_dev D) -> g_metadata g1 <> [] -> h_db h (g_metadata g1) = NoFile ->
  big_enough D (g_blockSize g1) -> 101 <= g_blockSize g1 -> spells t id -> length id = 16%nat -> id <> repeat x00 16 ->
  volume_image id D (g_blockSize g1) attrs V ->
  exists h1 b, btrfscue o1 h g1 (CRecon (Some t) a) [img] = mkResult h1 ONone Exit0 /\ gained h h1 (g_metadata g1) b /\
  forall o2 g2 clobber, g_metadata g2 = g_metadata g1 -> SpecContent.no_faults (o_env o2) -> 2^64 < Z.of_nat (o_cfuel o2) -> (length b + 1 < o_rfuel o2)%nat ->
    let F := w_fs (h_world h) in
    new_dest (o_env o2) F dest P -> (forall kids, tree_of V = TDir kids -> paths_short dest kids) -> part_of_tree F P (tree_of V) -> replaceable clobber F P (tree_of V) ->
    exists n, forall fuel, (n <= fuel)%nat -> exists h2 w evs, btrfscue (with_fuel o2 fuel) h1 g2 (CRecover clobber) [img; dest] = mkResult h2 ONone Exit0 /\ wrote h1 h2 w /\
      holds_tree (w_fs w) P (tree_of V) /\ (forall p, ~ at_or_below P p -> ~ at_or_below p P -> look (w_fs w) p = look F p) /\
      w_log w = evs ++ w_log (h_world h) /\ (forall k s, ~ In (EvWarn k s) evs).
Proof.
  intros o1 h g1 t id a img D attrs V dest P HO Hd Hm Hf HB Hb HS HL HZ (f & c & is & HI & HV & HC & HCa).
  destruct (top_dir _ _ _ _ _ HV) as (kids & EV). pose proof (proj1 (items_wf _ _ _ _ HI)) as HW.
  destruct (v_volume attrs D f c V is HV HC HCa HW kids EV) as [HS1 _].
  destruct (C90_recon_recover o1 h g1 t id a img D is [(f, c)] (map kid_tree kids) dest P HO Hd Hm Hf HB Hb HS HL HZ HI (v_orderly attrs D f c V is HV HCa) (v_chunks attrs f c V is HC HCa) HS1) as (h1 & b & R1 & R2 & R3).
  exists h1, b. split; [exact R1|]. split; [exact R2|]. intros o2 g2 clobber E1 E2 E3 E4 F E5 E6 E7 E8. subst V. rewrite tree_kids in *.
  destruct (R3 o2 g2 clobber E1 E2 E3 E4 E5 (E6 _ eq_refl) E7 E8) as (n & R4). exists n. intros fuel Hn. destruct (R4 fuel Hn) as (h2 & w & evs & Q1 & Q2 & Q3 & Q4 & Q5 & Q6 & Q7).
  exists h2, w, evs. auto 10.
Qed.
Theorem C93_mount : forall o1 h g1 t id a img D attrs V,
  no_trouble o1 -> h_dev h img = Some (file_dev D) -> g_metadata g1 <> [] -> h_db h (g_metadata g1) = NoFile ->
  big_enough D (g_blockSize g1) -> 101 <= g_blockSize g1 -> spells t id -> length id = 16%nat -> id <> repeat x00 16 ->
  volume_image id D (g_blockSize g1) attrs V -> no_empty V ->
  exists h1 b, btrfscue o1 h g1 (CRecon (Some t) a) [img] = mkResult h1 ONone Exit0 /\ gained h h1 (g_metadata g1) b /\
  forall o2 g2 dir, g_metadata g2 = g_metadata g1 -> o_okmount o2 = true ->
    exists gen, btrfscue o2 h1 g2 CMount [img; dir] = mkResult h1 ONone (Serving b gen (Reader (file_reader D)) dir) /\
      forall rfuel, (length b + 1 < rfuel)%nat -> let q := ix_queries rfuel b gen in
      (forall (T : known) (p : cpath) (isd : bool) (n : node_state), session q T -> In (p, isd, n) T -> exists t, tree_sub (tree_of V) p = Some t /\ isd = is_tdir t /\ shows_node q (file_reader D) t n) /\
      (forall (T : known) (p : cpath) t, session q T -> (exists n, In ([], true, n) T) -> tree_sub (tree_of V) p = Some t -> exists T' n, session q T' /\ incl (map fst T) (map fst T') /\ In (p, is_tdir t, n) T').
Proof.
  intros o1 h g1 t id a img D attrs V HO Hd Hm Hf HB Hb HS HL HZ (f & c & is & HI & HV & HC & HCa) HE.
  destruct (top_dir _ _ _ _ _ HV) as (kids & EV). pose proof (proj1 (items_wf _ _ _ _ HI)) as HW.
  destruct (v_volume attrs D f c V is HV HC HCa HW kids EV) as [_ HS1].
  destruct (C90_recon_mount o1 h g1 t id a img D is [(f, c)] (map kid_tree kids) (dirs V) HO Hd Hm Hf HB Hb HS HL HZ HI (v_orderly attrs D f c V is HV HCa) (v_chunks attrs f c V is HC HCa) HS1 (v_mountable attrs D f c V is HV HC HCa HW HE) (file_reader_good D)) as (h1 & b & R1 & R2 & R3).
  exists h1, b. split; [exact R1|]. split; [exact R2|]. intros o2 g2 dir E1 E2. destruct (R3 o2 g2 dir E1 E2) as (gen & Q1 & _ & Q3). exists gen. split; [exact Q1|].
  subst V. rewrite tree_kids. exact Q3.
Qed.
(** ls prints the entries of the directories of the volume; without arguments, of the top directory *)
Theorem C93_ls : forall o1 h g1 t id a img D attrs V,
  no_trouble o1 -> h_dev h img = Some (file_dev D) -> g_metadata g1 <> [] -> h_db h (g_metadata g1) = NoFile ->
  big_enough D (g_blockSize g1) -> 101 <= g_blockSize g1 -> spells t id -> length id = 16%nat -> id <> repeat x00 16 ->
  volume_image id D (g_blockSize g1) attrs V ->
  exists h1 b, btrfscue o1 h g1 (CRecon (Some t) a) [img] = mkResult h1 ONone Exit0 /\ gained h h1 (g_metadata g1) b /\
  forall o2 g2 recursive show args, g_metadata g2 = g_metadata g1 -> (length b + 1 < o_rfuel o2)%nat -> sorter (o_sort o2) ->
    let what := map (shown_for (path_entry (entries attrs V))) (match args with [] => [root_path] | _ => args end) in
    exists n texts, Forall2 (ls_text (o_time o2) (inodes_of attrs V) show (entries attrs V) recursive) (flat_map dir_of what) texts /\ forall fuel, (n <= fuel)%nat ->
      btrfscue (with_fuel o2 fuel) h1 g2 (CLs recursive show) args =
      mkResult h1 (OListing (concat (map (ls_line (o_time o2) (inodes_of attrs V) show) (flat_map one_of what))) (flat_map missing_of what) (concat texts)) Exit0.
Proof.
  intros o1 h g1 t id a img D attrs V HO Hd Hm Hf HB Hb HS HL HZ (f & c & is & HI & HV & HC & HCa). pose proof (proj1 (items_wf _ _ _ _ HI)) as HW.
  destruct (C90_recon_ls o1 h g1 t id a img D is [(f, c)] (entries attrs V) (inodes_of attrs V) HO Hd Hm Hf HB Hb HS HL HZ HI (v_orderly attrs D f c V is HV HCa) (v_chunks attrs f c V is HC HCa) (l_dirs attrs D f c V is HV HCa) (l_inodes attrs D f c V is HV HCa) (l_plain attrs D f c V HV)) as (h1 & b & R1 & R2 & R3).
  exists h1, b. split; [exact R1|]. split; [exact R2|]. intros o2 g2 recursive show args E1 E2 E3 what. apply (R3 o2 g2 recursive show args E1 E2 E3). intros _ d _. exact (l_acc attrs D f c V HV d).
Qed.
(** the entry of a path is that of the object it leads to *)
Theorem C93_ls_paths : forall id D bs attrs V p, volume_image id D bs attrs V -> Split (TrimLeft p) <> [] ->
  path_entry (entries attrs V) p = option_map (fun w => entry attrs (last (Split (TrimLeft p)) [], w)) (vsub V (Split (TrimLeft p))).
Proof.
  intros id D bs attrs V p (f & c & is & _ & HV & _) Hp. unfold path_entry. pose proof (proj1 HV) as E0. rewrite <- E0. exact (entry_path attrs D f c V HV _ V (node_self V) Hp).
Qed.
Print Assumptions C93_recover. Print Assumptions C93_mount. Print Assumptions C93_ls. Print Assumptions C93_ls_paths.

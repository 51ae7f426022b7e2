(** C90: the work flow from the command line: recon, then recover, mount or ls. *)
From Verif Require Import Go GoProofs Layout LayoutProofs SpecLayout KeyFmt KeyProofs Bolt Store StoreProofs SpecStore Session PropsSession IoUtil Recon ReconCmd PropsRecon PropsReconEx RangeItems.
From Verif Require Import PropsPath ToString Fs Recover RecoverProofs SpecFs SpecContent PathProofs PropsRecoverPaths PropsRecoverDfs PropsRecoverFile SpecTree TreeRun TreeFull SpecDisk DiskProofs PropsDest PropsDisk SpecLoss Rescue PropsRescueRead PropsRescueNode SpecMount PropsMount PropsMountDisk SpecMountAny PropsMountAny PropsMountAnyDisk.
From Verif Require Import Path Ls PropsLs PropsLsEx PropsLsDisk Uuid PropsUuid Cli SpecCli PropsCli.
From Coq Require Import List Permutation ZifyBool ZifyNat ZifyN.
Ltac Zify.zify_post_hook ::= Z.div_mod_to_equations.

(** recon on the command line is doScanFS *)
Lemma recon_cmd o h g t id a img D b : no_trouble o -> h_dev h img = Some (file_dev D) -> g_metadata g <> [] -> h_db h (g_metadata g) = NoFile ->
  big_enough D (g_blockSize g) -> spells t id -> length id = 16%nat -> id <> repeat x00 16 ->
  doScanFS true true PropsRecon.no_faults (file_dev D) (g_blockSize g) id None = (Some b, XOk) ->
  exists h1, btrfscue o h g (CRecon (Some t) a) [img] = mkResult h1 ONone Exit0 /\ gained h h1 (g_metadata g) b.
Proof.
  intros (O1 & O2 & O3 & _) Hd Hm Hf HB HS HL HZ HR. exists (set_db h (g_metadata g) (Database (Some b))). split.
  - unfold btrfscue. change (args_ok (CRecon (Some t) a) [img]) with true. cbn [negb]. unfold run_recon. destruct (C32_parse (repeat x00 16) t) as [HC _]. change (Set_ (repeat x00 16) t) with (New t) in HC. rewrite (proj2 (HC id) (conj HS HL)). cbn [negb].
    destruct (zlen (g_metadata g) =? 0) eqn:EM; [apply metadata_empty in EM; contradiction|]. unfold IsZero. destruct (bytes_eqb id (repeat x00 16)) eqn:EZ; [apply bytes_eqb_eq in EZ; contradiction|]. rewrite Hd, Hf, O1, O2, O3. cbv zeta.
    assert (EC : snd (CheckDeviceSize (dev_seek (file_dev D)) (g_blockSize g)) = true).
    { destruct (snd (CheckDeviceSize (dev_seek (file_dev D)) (g_blockSize g))) eqn:E; [reflexivity|]. exfalso. unfold doScanFS in HR. rewrite EZ in HR. destruct (CheckDeviceSize (dev_seek (file_dev D)) (g_blockSize g)) as [sz ok]. cbn [snd] in E. subst ok. cbn [negb] in HR. discriminate. }
    rewrite EC. cbn [negb]. replace (g_blockSize g =? 0) with false by (destruct HB; lia). change (fun _ _ : Z => true) with PropsRecon.no_faults. unfold doScanFS_opts. cbn [so_id]. rewrite HR. reflexivity.
  - split; [cbn [set_db h_db]; rewrite bytes_eqb_refl; reflexivity|]. split; [|split; reflexivity]. intros q Hq. cbn [set_db h_db]. destruct (bytes_eqb q (g_metadata g)) eqn:E; [apply bytes_eqb_eq in E; contradiction|reflexivity].
Qed.
(** the commands that read the index find it *)
Lemma open_cmd h p b ix k : h_db h p = Database (Some b) -> OpenReadOnly (Some b) = Ok (Some b, Some ix) -> ix_tx ix = Some (mkTx false b) -> open_metadata h p k = k b (ix_Generation ix).
Proof. intros H1 H2 H3. unfold open_metadata. rewrite H1, H2. cbn [on_res snd]. rewrite H3. reflexivity. Qed.

(** C90.  Commands of one session may use different oracles and block sizes; what links them is the metadata file. *)
Theorem C90_recon_recover : forall o1 h g1 t id a img D is cs kids dest P,
  no_trouble o1 -> h_dev h img = Some (file_dev D) -> g_metadata g1 <> [] -> h_db h (g_metadata g1) = NoFile ->
  big_enough D (g_blockSize g1) -> 101 <= g_blockSize g1 -> spells t id -> length id = 16%nat -> id <> repeat x00 16 ->
  image_items id D (g_blockSize g1) is -> orderly is -> chunks_are is cs -> volume_shows (table is cs) D kids ->
  exists h1 b, btrfscue o1 h g1 (CRecon (Some t) a) [img] = mkResult h1 ONone Exit0 /\ gained h h1 (g_metadata g1) b /\
  forall o2 g2 clobber, g_metadata g2 = g_metadata g1 -> SpecContent.no_faults (o_env o2) -> 2^64 < Z.of_nat (o_cfuel o2) -> (length b + 1 < o_rfuel o2)%nat ->
    let F := w_fs (h_world h) in
    new_dest (o_env o2) F dest P -> paths_short dest kids -> part_of_tree F P (TDir kids) -> replaceable clobber F P (TDir kids) ->
    exists n, forall fuel, (n <= fuel)%nat -> exists h2 w evs, btrfscue (with_fuel o2 fuel) h1 g2 (CRecover clobber) [img; dest] = mkResult h2 ONone Exit0 /\ wrote h1 h2 w /\
      holds_tree (w_fs w) P (TDir kids) /\ (forall a b, P = a ++ b -> look (w_fs w) a = Some NDir) /\
      (forall p, ~ at_or_below P p -> ~ at_or_below p P -> look (w_fs w) p = look F p) /\
      w_log w = evs ++ w_log (h_world h) /\ (forall k s, ~ In (EvWarn k s) evs).
Proof.
  intros o1 h g1 t id a img D is cs kids dest P HO Hd Hm Hf HB Hb HS HL HZ HI HOr HC HV.
  destruct (open_none (g_blockSize g1) id HL) as (ix0 & HOp). destruct (recon_run id D (g_blockSize g1) None _ ix0 HB HZ HOp) as (b0' & E0 & HRun). rewrite (trace_items id D _ is HB Hb HI) in HRun. cbn [fst snd] in HRun.
  set (b := fold_left put_ins is b0') in *. destruct (recon_cmd o1 h g1 t id a img D b HO Hd Hm Hf HB HS HL HZ HRun) as (h1 & HR & HG).
  exists h1, b. split; [exact HR|]. split; [exact HG|]. destruct HG as (G1 & G2 & G3 & G4).
  intros o2 g2 clobber Em HE Hcf Hr F HP HPS HPT HRp.
  destruct (C69_recon_then_recover id D (g_blockSize g1) is cs kids (o_env o2) clobber dest (h_world h) P (o_cfuel o2) HB Hb HL HZ HI HOr HC HV HE Hcf HP HPS HPT HRp) as (b' & ix & S1 & S2 & S3 & S4).
  assert (b' = b) by congruence. subst b'. destruct (S4 (o_rfuel o2) Hr) as (n & S5). exists n. intros fuel Hn. destruct (S5 fuel Hn) as (w & v & evs & Q1 & Q2 & Q3 & Q4 & Q5 & Q6).
  exists (set_world h1 w), w, evs. split; [|split; [split; [reflexivity|split; reflexivity]|auto]].
  unfold btrfscue. change (args_ok (CRecover clobber) [img; dest]) with true. cbn [negb]. unfold run_recover. rewrite Em. destruct (zlen (g_metadata g1) =? 0) eqn:EM; [apply metadata_empty in EM; contradiction|].
  rewrite (open_cmd h1 (g_metadata g1) b ix _ G1 S2 S3). rewrite G3, Hd, G4. cbn [with_fuel o_fuel o_cfuel o_env o_rfuel file_dev dev_read]. rewrite Q1. reflexivity.
Qed.
(** the mount, given the image again, serves the tree; without it, it serves the same index *)
Theorem C90_recon_mount : forall o1 h g1 t id a img D is cs kids ks,
  no_trouble o1 -> h_dev h img = Some (file_dev D) -> g_metadata g1 <> [] -> h_db h (g_metadata g1) = NoFile ->
  big_enough D (g_blockSize g1) -> 101 <= g_blockSize g1 -> spells t id -> length id = 16%nat -> id <> repeat x00 16 ->
  image_items id D (g_blockSize g1) is -> orderly is -> chunks_are is cs ->
  dir_shows (table is cs) D FSTreeObjectID FirstFreeObjectID kids ks -> mountable (table is cs) ks -> good_device D (file_reader D) ->
  exists h1 b, btrfscue o1 h g1 (CRecon (Some t) a) [img] = mkResult h1 ONone Exit0 /\ gained h h1 (g_metadata g1) b /\
  forall o2 g2 dir, g_metadata g2 = g_metadata g1 -> o_okmount o2 = true ->
    exists gen, btrfscue o2 h1 g2 CMount [img; dir] = mkResult h1 ONone (Serving b gen (Reader (file_reader D)) dir) /\
      btrfscue o2 h1 g2 CMount [dir] = mkResult h1 ONone (Serving b gen NilFile dir) /\
      forall rfuel, (length b + 1 < rfuel)%nat -> let q := ix_queries rfuel b gen in
      (forall T p isd n, session q T -> In (p, isd, n) T -> exists t, tree_sub (TDir kids) p = Some t /\ isd = is_tdir t /\ shows_node q (file_reader D) t n) /\
      (forall T p t, session q T -> (exists n, In ([], true, n) T) -> tree_sub (TDir kids) p = Some t -> exists T' n, session q T' /\ incl (map fst T) (map fst T') /\ In (p, is_tdir t, n) T').
Proof.
  intros o1 h g1 t id a img D is cs kids ks HO Hd Hm Hf HB Hb HS HL HZ HI HOr HC HV HM HG0.
  destruct (C70_recon_then_mount id D (g_blockSize g1) is cs kids ks (file_reader D) HB Hb HL HZ HI HOr HC HV HM HG0) as (b & ix & S1 & S2 & S3 & S4).
  destruct (recon_cmd o1 h g1 t id a img D b HO Hd Hm Hf HB HS HL HZ S1) as (h1 & HR & HG).
  exists h1, b. split; [exact HR|]. split; [exact HG|]. destruct HG as (G1 & G2 & G3 & G4). intros o2 g2 dir Em Ok2. exists (ix_Generation ix).
  split; [|split; [|exact S4]].
  - unfold btrfscue. change (args_ok CMount [img; dir]) with true. cbn [negb]. unfold run_mount. rewrite Em. destruct (zlen (g_metadata g1) =? 0) eqn:EM; [apply metadata_empty in EM; contradiction|].
    rewrite (open_cmd h1 (g_metadata g1) b ix _ G1 S2 S3). cbv zeta. rewrite G3, Hd, Ok2. reflexivity.
  - unfold btrfscue. change (args_ok CMount [dir]) with true. cbn [negb]. unfold run_mount. rewrite Em. destruct (zlen (g_metadata g1) =? 0) eqn:EM; [apply metadata_empty in EM; contradiction|].
    rewrite (open_cmd h1 (g_metadata g1) b ix _ G1 S2 S3). cbv zeta. rewrite Ok2. reflexivity.
Qed.
Theorem C90_recon_ls : forall o1 h g1 t id a img D is cs contents inodes,
  no_trouble o1 -> h_dev h img = Some (file_dev D) -> g_metadata g1 <> [] -> h_db h (g_metadata g1) = NoFile ->
  big_enough D (g_blockSize g1) -> 101 <= g_blockSize g1 -> spells t id -> length id = 16%nat -> id <> repeat x00 16 ->
  image_items id D (g_blockSize g1) is -> orderly is -> chunks_are is cs ->
  (forall d, dir_holds (table is cs) 5 d (contents d)) -> inodes_are (table is cs) 5 inodes -> plain_tree contents ->
  exists h1 b, btrfscue o1 h g1 (CRecon (Some t) a) [img] = mkResult h1 ONone Exit0 /\ gained h h1 (g_metadata g1) b /\
  forall o2 g2 recursive show args, g_metadata g2 = g_metadata g1 -> (length b + 1 < o_rfuel o2)%nat -> sorter (o_sort o2) ->
    let what := map (shown_for (path_entry contents)) (match args with [] => [root_path] | _ => args end) in
    (recursive = true -> forall d, In d (flat_map dir_of what) -> Acc (subdir contents) d) ->
    exists n texts, Forall2 (ls_text (o_time o2) inodes show contents recursive) (flat_map dir_of what) texts /\ forall fuel, (n <= fuel)%nat ->
      btrfscue (with_fuel o2 fuel) h1 g2 (CLs recursive show) args =
      mkResult h1 (OListing (concat (map (ls_line (o_time o2) inodes show) (flat_map one_of what))) (flat_map missing_of what) (concat texts)) Exit0.
Proof.
  intros o1 h g1 t id a img D is cs contents inodes HO Hd Hm Hf HB Hb HS HL HZ HI HOr HC HV HM HG0.
  destruct (C71_recon_then_ls id D (g_blockSize g1) is cs contents inodes HB Hb HL HZ HI HOr HC HV HM HG0) as (b & ix & S1 & S2 & S3 & S4).
  destruct (recon_cmd o1 h g1 t id a img D b HO Hd Hm Hf HB HS HL HZ S1) as (h1 & HR & HG).
  exists h1, b. split; [exact HR|]. split; [exact HG|]. destruct HG as (G1 & G2 & G3 & G4). intros o2 g2 recursive show args Em Hr Hso what Hacc.
  destruct (S4 (o_rfuel o2) Hr (o_time o2) (o_sort o2) recursive show args Hso Hacc) as (n & texts & F2 & HL2). exists n, texts. split; [exact F2|]. intros fuel Hn.
  unfold btrfscue. change (args_ok (CLs recursive show) args) with true. cbn [negb]. unfold run_ls. rewrite Em. destruct (zlen (g_metadata g1) =? 0) eqn:EM; [apply metadata_empty in EM; contradiction|].
  rewrite (open_cmd h1 (g_metadata g1) b ix _ G1 S2 S3). cbn [with_fuel o_fuel o_rfuel o_time o_sort]. rewrite (HL2 fuel Hn). reflexivity.
Qed.
Print Assumptions C90_recon_recover. Print Assumptions C90_recon_mount. Print Assumptions C90_recon_ls.

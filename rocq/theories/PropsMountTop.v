(** C94: the top of the mount point: the metadata file is shown as it is and cannot be changed; the
    file system is there if, and only if, the inode item of its top directory is. *)
From Verif Require Import Go GoProofs Layout LayoutProofs SpecLayout LeafProofs StructProofs PropsLayout KeyFmt KeyProofs Bolt Store StoreProofs SpecStore Session PropsSession IoUtil Crc PropsCrc Recon ReconCmd PropsRecon PropsReconEx RangeItems.
From Verif Require Import ToString PropsPath Path Fs Recover SpecFs SpecContent SpecTree TreeRun SpecDisk PropsDest SpecMount Rescue PropsRescueRead PropsRescueNode PropsMount PropsRecoverEx Ls PropsLs PropsLsEx PropsLsDisk Uuid PropsUuid Cli SpecCli PropsCli SpecVolume VolumeProofs VolumeLs PropsVolume MountTop.
From Coq Require Import List Lia ZifyBool ZifyNat ZifyN Permutation.
From Verif Require Import Go.
Ltac Zify.zify_post_hook ::= Z.div_mod_to_equations.

(** ** the metadata file *)
(** no requests that come through the kernel change the metadata file, whatever they are, and each of them is
    answered: opens as the permissions have it, reads with the bytes of the file, anything that would change it with an error *)
Definition answered (may : Z -> bool) (file : list byte) (opened : list Z) (r : mreq) (a : manswer) : Prop :=
  match r with
  | QOpen flags => if may flags then a = AHandle (Some (length opened)) (St OK) else a = AHandle None EACCES
  | QRead h off n =>
      (forall mode, nth_error opened h = Some mode -> mode <> 1 -> 0 <= off -> a = ABytes (firstn (Z.to_nat n) (skipn (Z.to_nat off) file)) (St OK)) /\
      (* a handle opened for writing only, or one never given out *)
      (nth_error opened h = Some 1 \/ nth_error opened h = None -> a = ABytes [] EBADF)
  | QWrite _ _ _ | QTruncate _ | QOther => exists s, a = AStatus s /\ s <> St OK
  | QFsync _ | QRelease _ => a = AStatus (St OK)
  end.
(** the access modes of the handles after some requests *)
Definition opened_by (may : Z -> bool) (rs : list mreq) : list Z :=
  flat_map (fun r => match r with QOpen flags => if may flags then [access flags] else [] | _ => [] end) rs.
Lemma step_kept may file hs r m a : from_kernel r -> metadata_step may (mkMfile (Some file) hs) r = (m, a) ->
  m = mkMfile (Some file) (hs ++ opened_by may [r]) /\ answered may file hs r a.
Proof.
  intros HK E. destruct r as [flags|h off n|h off d|z|h|h|]; cbn [metadata_step] in E; cbn [opened_by flat_map answered];
    try (injection E as <- <-; rewrite !app_nil_r; split; [reflexivity|]; eauto; fail).
  - destruct HK as (_ & _ & HT). unfold metadata_Open in E. cbn [m_bytes m_handles] in E. rewrite HT in E. destruct (may flags); injection E as <- <-; rewrite ?app_nil_r; split; reflexivity.
  - unfold metadata_Read in E. cbn [m_bytes m_handles] in E. rewrite !app_nil_r. destruct (nth_error hs h) as [md|] eqn:E1.
    + destruct (Z.eqb_spec md 1) as [Hm|Hm]; [injection E as <- <-; split; [reflexivity|]; split; [intros md' E2 H2; congruence|reflexivity]|].
      destruct (Z.ltb_spec off 0) as [Ho|Ho]; injection E as <- <-; (split; [reflexivity|]); (split; [intros md' E2 H2 H3; first [lia|reflexivity]|intros [E2|E2]; congruence]).
    + injection E as <- <-. split; [reflexivity|]. split; [intros md' E2; discriminate E2|reflexivity].
  - injection E as <- <-; rewrite !app_nil_r; split; [reflexivity|]. exists EPERM. split; [reflexivity|discriminate].
  - injection E as <- <-; rewrite !app_nil_r; split; [reflexivity|]. exists ENOSYS. split; [reflexivity|discriminate].
  - injection E as <- <-; rewrite !app_nil_r; split; [reflexivity|]. exists ENOSYS. split; [reflexivity|discriminate].
Qed.
Lemma run_kept may file : forall rs hs m l, Forall from_kernel rs -> metadata_run may (mkMfile (Some file) hs) rs = (m, l) ->
  m = mkMfile (Some file) (hs ++ opened_by may rs) /\ length l = length rs /\
  forall i r a, nth_error rs i = Some r -> nth_error l i = Some a -> answered may file (hs ++ opened_by may (firstn i rs)) r a.
Proof.
  induction rs as [|r rs IH]; intros hs m l HK E; cbn [metadata_run] in E.
  - injection E as <- <-. rewrite app_nil_r. split; [reflexivity|]. split; [reflexivity|]. intros [|i] r a H; discriminate H.
  - inversion HK as [|? ? HK1 HK2]; subst. destruct (metadata_step may (mkMfile (Some file) hs) r) as [m1 a1] eqn:E1. destruct (step_kept _ _ _ _ _ _ HK1 E1) as [-> HA].
    destruct (metadata_run may _ rs) as [m2 l2] eqn:E2. injection E as <- <-. destruct (IH _ _ _ HK2 E2) as (-> & HL & HI). split; [|split].
    + f_equal. rewrite <- app_assoc. f_equal. unfold opened_by. cbn [flat_map]. rewrite app_nil_r. reflexivity.
    + cbn [length]. lia.
    + intros [|i] r' a' Hr Ha; cbn [nth_error firstn] in *.
      * injection Hr as <-. injection Ha as <-. cbn [opened_by flat_map]. rewrite app_nil_r. exact HA.
      * specialize (HI i r' a' Hr Ha). rewrite <- app_assoc in HI. unfold opened_by in *. cbn [flat_map] in *. rewrite app_nil_r in HI. exact HI.
Qed.
Theorem C94_metadata_kept : forall may file rs m l, Forall from_kernel rs -> metadata_run may (mkMfile (Some file) []) rs = (m, l) ->
  m_bytes m = Some file /\ length l = length rs /\
  forall i r a, nth_error rs i = Some r -> nth_error l i = Some a -> answered may file (opened_by may (firstn i rs)) r a.
Proof. intros may file rs m l HK E. destruct (run_kept _ _ _ [] _ _ HK E) as (-> & H). split; [reflexivity|exact H]. Qed.
(** a file that is gone is not made again *)
Theorem C94_no_file : forall may rs m l, Forall from_kernel rs -> metadata_run may (mkMfile None []) rs = (m, l) ->
  m_bytes m = None /\ forall i flags a, nth_error rs i = Some (QOpen flags) -> nth_error l i = Some a -> a = AHandle None (St ENOENT).
Proof.
  intros may rs. induction rs as [|r rs IH]; intros m l HK E; cbn [metadata_run] in E.
  - injection E as <- <-. split; [reflexivity|]. intros [|i] flags a H; discriminate H.
  - inversion HK as [|? ? HK1 HK2]; subst. assert (HS : fst (metadata_step may (mkMfile None []) r) = mkMfile None [] /\ forall flags, r = QOpen flags -> snd (metadata_step may (mkMfile None []) r) = AHandle None (St ENOENT)).
    { destruct r as [flags|h off n|h off d|z|h|h|]; cbn [metadata_step]; try (split; [reflexivity|intros f Hf; discriminate Hf]).
      destruct HK1 as (HC & _). unfold metadata_Open. cbn [m_bytes]. rewrite HC. split; reflexivity. }
    destruct (metadata_step may _ r) as [m1 a1]. cbn [fst snd] in HS. destruct HS as [-> HS]. destruct (metadata_run may _ rs) as [m2 l2] eqn:E2. injection E as <- <-. destruct (IH _ _ HK2 eq_refl) as [H1 H2]. split; [exact H1|].
    intros [|i] flags a Hr Ha; cbn [nth_error] in *; [injection Hr as ->; injection Ha as <-; apply (HS flags eq_refl)|apply (H2 i flags a Hr Ha)].
Qed.
(** reads one after the other give the file *)
Definition read_pieces (m : mfile) (h : nat) : Z -> list Z -> list byte := fix go off ns :=
  match ns with [] => [] | n :: ns => fst (metadata_Read m h off n) ++ go (off + n) ns end.
Theorem C94_metadata_whole : forall file hs h mode ns, nth_error hs h = Some mode -> mode <> 1 -> Forall (fun n => 0 <= n) ns -> zlen file <= fold_right Z.add 0 ns ->
  read_pieces (mkMfile (Some file) hs) h 0 ns = file.
Proof.
  intros file hs h mode ns Hh Hm HN HS.
  assert (HX : forall ns off, 0 <= off -> Forall (fun n => 0 <= n) ns -> zlen file <= off + fold_right Z.add 0 ns -> read_pieces (mkMfile (Some file) hs) h off ns = skipn (Z.to_nat off) file).
  { clear ns HN HS. induction ns as [|n ns IH]; intros off Ho HN HS; cbn [read_pieces fold_right] in *.
    - rewrite skipn_all2; [reflexivity|]. unfold zlen in HS. lia.
    - inversion HN as [|? ? H1 H2]; subst. rewrite IH by (auto; lia). unfold metadata_Read. cbn [m_bytes m_handles]. rewrite Hh. destruct (Z.eqb_spec mode 1); [congruence|]. destruct (Z.ltb_spec off 0); [lia|]. cbn [fst].
      rewrite Z2Nat.inj_add by lia. rewrite <- skipn_skipn'. apply firstn_skipn. }
  rewrite HX by (auto; lia). reflexivity.
Qed.
(** what holds the file safe is the kernel: asked directly with O_TRUNC, Open empties the metadata file that the
    process is serving from *)
Theorem C94_open_truncates : forall may file flags, has flags O_TRUNC = true -> may flags = true ->
  exists m h, metadata_Open may (mkMfile (Some file) []) flags = (m, Some h, St OK) /\ m_bytes m = Some [].
Proof. intros may file flags HT HM. unfold metadata_Open. cbn [m_bytes]. rewrite HT, HM. eexists. eexists. split; reflexivity. Qed.

(** a handle that Open gives is a new one with the access mode asked for, also for a file it created (only with O_CREAT, and empty), and only if the process may; the others stay what they are *)
Theorem C94_handle : forall may m flags m' h, metadata_Open may m flags = (m', Some h, St OK) ->
  may flags = true /\ (m_bytes m = None -> has flags O_CREAT = true /\ m_bytes m' = Some []) /\ nth_error (m_handles m') h = Some (access flags) /\ nth_error (m_handles m) h = None /\
  forall h' mode, nth_error (m_handles m) h' = Some mode -> nth_error (m_handles m') h' = Some mode.
Proof.
  intros may [b hs] flags m' h H.
  assert (P : may flags = true /\ (b = None -> has flags O_CREAT = true /\ m_bytes m' = Some [])).
  { unfold metadata_Open in H. cbn [m_bytes m_handles] in H. destruct b as [b|]; [|destruct (has flags O_CREAT); [|discriminate H]]; (destruct (may flags); [|discriminate H]); injection H as <- <-; (split; [reflexivity|]); [discriminate|intros _; split; reflexivity]. }
  destruct P as [P1 P2]. split; [exact P1|]. split; [exact P2|].
  assert (G : m_handles m' = hs ++ [access flags] /\ h = List.length hs).
  { unfold metadata_Open in H. cbn [m_bytes m_handles] in H. destruct b as [b|]; [|destruct (has flags O_CREAT); [|discriminate H]]; (destruct (may flags); [|discriminate H]); injection H as <- <-; split; reflexivity. }
  destruct G as [-> ->]. cbn [m_handles]. split; [rewrite nth_error_app2, Nat.sub_diag by lia; reflexivity|]. split; [apply nth_error_None; lia|].
  intros h' mode Hh. rewrite nth_error_app1; [exact Hh|]. apply nth_error_Some. congruence.
Qed.
Example C94_handle_ex : metadata_Open (fun _ => true) (mkMfile None [0]) (O_CREAT + 2) = (mkMfile (Some []) [0; 2], Some 1%nat, St OK).
Proof. reflexivity. Qed.

(** ** the root *)
(** the states of the top after any requests: to the root, and to the node of the file system *)
Inductive top_state (q : queries) (now : Z * Z) (s : option stat) : top -> Prop :=
| top_mounted : top_state q now s (mounted_top now s)
| top_lookup t name t' a st : top_state q now s t -> root_Lookup q t name = Ok (t', a, st) -> top_state q now s t'
| top_list t flip t' es : top_state q now s t -> root_OpenDir q flip t = Ok (t', es) -> top_state q now s t'
| top_below t n : top_state q now s t ->
    (exists name c a st, Lookup q (t_rescue t) name = Ok (n, c, a, st)) \/ (exists ord es, OpenDir q ord (t_rescue t) = Ok (n, es)) \/ (exists a st, GetAttr q (t_rescue t) = Ok (n, a, st)) ->
    top_state q now s (mkTop (t_root t) n (t_meta t)).
Lemma rescue_served q t t' a st : served q FSTreeObjectID FirstFreeObjectID (t_rescue t) -> rescue_attr q t = Ok (t', a, st) ->
  t' = mkTop (t_root t) (t_rescue t') (t_meta t) /\ served q FSTreeObjectID FirstFreeObjectID (t_rescue t').
Proof.
  intros HS H. unfold rescue_attr in H. apply rbind_inv in H as ([[n x] y] & HA & H). injection H as <- _ _. cbn [t_rescue]. split; [reflexivity|]. exact (served_getattr _ _ _ _ _ _ _ HS HA).
Qed.
Lemma top_form q now s t : top_state q now s t -> t = mkTop (newNode now) (t_rescue t) (newMetadataNode s) /\ served q FSTreeObjectID FirstFreeObjectID (t_rescue t).
Proof.
  induction 1 as [|t name t' a st _ [IH1 IH2] H|t flip t' es _ [IH1 IH2] H|t n _ [IH1 IH2] H].
  - split; [reflexivity|apply served_new].
  - unfold root_Lookup in H. destruct (bytes_eqb name n_rescue).
    + destruct (rescue_served q t t' a st IH2 H) as [E HS]. split; [|exact HS]. rewrite IH1 in E. exact E.
    + destruct (bytes_eqb name n_metadata); assert (t' = t) by congruence; subst t'; auto.
  - unfold root_OpenDir in H. apply rbind_inv in H as ([[t1 a] st] & HA & H). assert (t' = t1) by congruence. subst t1. destruct (rescue_served q t t' a st IH2 HA) as [E HS]. split; [|exact HS]. rewrite IH1 in E. exact E.
  - cbn [t_rescue t_root t_meta]. split; [rewrite IH1; reflexivity|]. destruct H as [(name & c & a & st & H)|[(ord & es & H)|(a & st & H)]].
    + exact (served_lookup _ _ _ _ _ _ _ _ _ IH2 H).
    + exact (served_opendir _ _ _ _ _ _ _ IH2 H).
    + exact (served_getattr _ _ _ _ _ _ _ IH2 H).
Qed.
(** with the inode item of the top directory both names are there, at any time *)
Theorem C94_root : forall q now s t d, top_state q now s t -> has_inode q FSTreeObjectID FirstFreeObjectID d ->
  (forall flip, exists t' es, root_OpenDir q flip t = Ok (t', es) /\ Permutation es [(n_rescue, in_mode d); (n_metadata, a_mode (newMetadataNode s))]) /\
  (exists t', root_Lookup q t n_rescue = Ok (t', Some (attr_of FirstFreeObjectID d), St OK)) /\
  root_Lookup q t n_metadata = Ok (t, Some (newMetadataNode s), St OK) /\
  (forall name, name <> n_rescue -> name <> n_metadata -> root_Lookup q t name = Ok (t, None, St ENOENT)) /\
  (* the root itself: a directory everybody may read and enter and nobody may write, dated now *)
  a_mode (t_root t) = 0x4000 + 4*64+64 + 4*8+8 + 4+1 /\ a_mtime (t_root t) = fst now /\ a_mtimensec (t_root t) = snd now.
Proof.
  intros q now s t d HT HI. destruct (top_form _ _ _ _ HT) as [E HS]. destruct (C55_attributes q _ _ _ d HS HI) as (n' & HA).
  assert (HR : rescue_attr q t = Ok (mkTop (t_root t) n' (t_meta t), Some (attr_of FirstFreeObjectID d), St OK)) by (unfold rescue_attr; rewrite HA; reflexivity).
  assert (HM : t_meta t = newMetadataNode s) by (rewrite E; reflexivity).
  split; [|split; [|split; [|split]]].
  - intros flip. unfold root_OpenDir. rewrite HR. cbn [rbind t_meta]. rewrite HM. eexists. eexists. split; [reflexivity|]. destruct flip; cbn [app attr_of a_mode]; [apply perm_swap|apply Permutation_refl].
  - unfold root_Lookup. rewrite bytes_eqb_refl, HR. eexists. reflexivity.
  - unfold root_Lookup. rewrite bytes_eqb_refl, HM. reflexivity.
  - intros name H1 H2. unfold root_Lookup. rewrite (proj2 (bytes_eqb_neq _ _) H1), (proj2 (bytes_eqb_neq _ _) H2). reflexivity.
  - rewrite E. cbn [t_root]. repeat split.
Qed.
(** without it the file system is not listed and cannot be entered, however much of it there is *)
Theorem C94_root_lost : forall q now s t, top_state q now s t -> q_inode q FSTreeObjectID FirstFreeObjectID = Ok None ->
  (forall flip, exists t', root_OpenDir q flip t = Ok (t', [(n_metadata, a_mode (newMetadataNode s))])) /\
  (exists t', root_Lookup q t n_rescue = Ok (t', None, St ENOATTR)).
Proof.
  intros q now s t HT HI. destruct (top_form _ _ _ _ HT) as [E HS]. apply (C55_enoattr q _ _ _ HS) in HI as (n' & HA).
  assert (HR : rescue_attr q t = Ok (mkTop (t_root t) n' (t_meta t), None, St ENOATTR)) by (unfold rescue_attr; rewrite HA; reflexivity).
  assert (HM : t_meta t = newMetadataNode s) by (rewrite E; reflexivity).
  split.
  - intros flip. unfold root_OpenDir. rewrite HR. cbn [rbind t_meta app]. rewrite HM. eexists. destruct flip; reflexivity.
  - unfold root_Lookup. rewrite bytes_eqb_refl, HR. eexists. reflexivity.
Qed.
(** the attributes: those of the file at the time of the mount, but a regular file that nobody may write *)
Theorem C94_metadata_attr : forall q now s t, 0 <= s_mode s -> top_state q now (Some s) t ->
  exists a, root_Lookup q t n_metadata = Ok (t, Some a, St OK) /\
    a_size a = s_size s /\ a_mode a / 2^12 = 8 /\ (forall bit, In bit [0; 2; 3; 5; 6; 8] -> Z.testbit (a_mode a) bit = Z.testbit (s_mode s) bit) /\
    (forall bit, In bit [1; 4; 7; 9; 10; 11] -> Z.testbit (a_mode a) bit = false) /\ a_uid a = s_uid s /\ a_gid a = s_gid s.
Proof.
  intros q now s t Hm HT. destruct (top_form _ _ _ _ HT) as [E _]. exists (newMetadataNode (Some s)). split; [unfold root_Lookup; rewrite bytes_eqb_refl, E; reflexivity|]. cbn [a_size a_mode a_uid a_gid newMetadataNode].
  split; [reflexivity|]. split.
  { rewrite <- Z.shiftr_div_pow2 by lia. rewrite Z.shiftr_lor. rewrite Z.shiftr_land. change (Z.shiftr 0x16d 12) with 0. rewrite Z.land_0_r. reflexivity. }
  split; [|split; [|split; reflexivity]].
  - intros bit Hb. rewrite Z.lor_spec, Z.land_spec. cbn [In] in Hb. repeat (destruct Hb as [<-|Hb]; [cbn; rewrite ?andb_true_r, ?orb_false_r; reflexivity|]). destruct Hb.
  - intros bit Hb. rewrite Z.lor_spec, Z.land_spec. cbn [In] in Hb. repeat (destruct Hb as [<-|Hb]; [cbn; rewrite ?andb_false_r; reflexivity|]). destruct Hb.
Qed.
(** every field, at any time: the root is an empty directory of no inode number dated when it was mounted; the metadata
    node has what stat said when it was mounted, and if stat failed, zeroes *)
Theorem C94_attributes : forall q now s t, top_state q now s t ->
  (a_ino (t_root t), a_size (t_root t), a_nlink (t_root t), a_uid (t_root t), a_gid (t_root t), a_rdev (t_root t)) = (0, 0, 0, 0, 0, 0) /\
  (a_atime (t_root t), a_atimensec (t_root t)) = now /\ (a_mtime (t_root t), a_mtimensec (t_root t)) = now /\ (a_ctime (t_root t), a_ctimensec (t_root t)) = now /\
  exists a, root_Lookup q t n_metadata = Ok (t, Some a, St OK) /\
    (forall st, s = Some st ->
      a_ino a = s_ino st /\ a_size a = s_size st /\ a_nlink a = s_nlink st /\ a_uid a = s_uid st /\ a_gid a = s_gid st /\ a_rdev a = s_rdev st /\
      (a_atime a, a_atimensec a) = s_atime st /\ (a_mtime a, a_mtimensec a) = s_mtime st /\ (a_ctime a, a_ctimensec a) = s_ctime st) /\
    (s = None ->
      (a_ino a, a_size a, a_nlink a, a_uid a, a_gid a, a_rdev a) = (0, 0, 0, 0, 0, 0) /\ a_mode a = 8 * 2^12 /\
      (a_atime a, a_atimensec a) = (0, 0) /\ (a_mtime a, a_mtimensec a) = (0, 0) /\ (a_ctime a, a_ctimensec a) = (0, 0)).
Proof.
  intros q now s t HT. destruct (top_form _ _ _ _ HT) as [E _]. rewrite E. cbn [t_root newNode a_ino a_size a_nlink a_uid a_gid a_rdev a_atime a_atimensec a_mtime a_mtimensec a_ctime a_ctimensec].
  destruct now as [n1 n2]. cbn [fst snd]. repeat (split; [reflexivity|]). exists (newMetadataNode s). split; [unfold root_Lookup; rewrite bytes_eqb_refl; reflexivity|]. split.
  - intros st ->. destruct st as [a b [c1 c2] [d1 d2] [e1 e2] f g h i j]. cbn. repeat split.
  - intros ->. cbn. repeat split.
Qed.
(** after recon and mount of a volume's image, at any time, the top shows both *)
Theorem C94_volume : forall o1 h g1 t id a img D attrs V,
  no_trouble o1 -> h_dev h img = Some (file_dev D) -> g_metadata g1 <> [] -> h_db h (g_metadata g1) = NoFile ->
  big_enough D (g_blockSize g1) -> 101 <= g_blockSize g1 -> spells t id -> length id = 16%nat -> id <> repeat x00 16 ->
  volume_image id D (g_blockSize g1) attrs V -> no_empty V ->
  exists h1 b, btrfscue o1 h g1 (CRecon (Some t) a) [img] = mkResult h1 ONone Exit0 /\ gained h h1 (g_metadata g1) b /\
  forall o2 g2 dir, g_metadata g2 = g_metadata g1 -> o_okmount o2 = true ->
    exists gen, btrfscue o2 h1 g2 CMount [img; dir] = mkResult h1 ONone (Serving b gen (Reader (file_reader D)) dir) /\
      forall rfuel now s top, (length b + 1 < rfuel)%nat -> let q := ix_queries rfuel b gen in top_state q now s top ->
        exists x, (forall flip, exists top' es, root_OpenDir q flip top = Ok (top', es) /\ Permutation es [(n_rescue, in_mode x); (n_metadata, a_mode (newMetadataNode s))]) /\
          exists top', root_Lookup q top n_rescue = Ok (top', Some (attr_of FirstFreeObjectID x), St OK).
Proof.
  intros o1 h g1 t id a img D attrs V HO Hd Hm Hf HB Hb HS HL HZ HV HE.
  destruct (C93_mount o1 h g1 t id a img D attrs V HO Hd Hm Hf HB Hb HS HL HZ HV HE) as (h1 & b & R1 & R2 & R3).
  exists h1, b. split; [exact R1|]. split; [exact R2|]. intros o2 g2 dir E1 E2. destruct (R3 o2 g2 dir E1 E2) as (gen & Q1 & Q2). exists gen. split; [exact Q1|].
  intros rfuel now s top Hr q HT. destruct (Q2 rfuel Hr) as [V1 _]. destruct (V1 _ [] true mount_node (ses_mount _) (or_introl eq_refl)) as (tr & _ & _ & (n' & x & _ & HI & _) & _).
  exists x. destruct (C94_root q now s top x HT HI) as (H1 & H2 & _). split; [exact H1|exact H2].
Qed.
Print Assumptions C94_metadata_kept. Print Assumptions C94_no_file. Print Assumptions C94_metadata_whole. Print Assumptions C94_metadata_attr. Print Assumptions C94_attributes. Print Assumptions C94_open_truncates. Print Assumptions C94_root. Print Assumptions C94_root_lost. Print Assumptions C94_volume.

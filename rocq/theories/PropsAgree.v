(** C87: what mount shows is what recover restores. *)
From Verif Require Import Go GoProofs Layout LayoutProofs SpecLayout KeyFmt KeyProofs Bolt Store StoreProofs SpecStore Session PropsSession IoUtil Recon PropsRecon PropsReconEx RangeItems.
From Verif Require Import PropsPath ToString Fs Recover RecoverProofs SpecFs SpecContent PathProofs PropsRecoverPaths PropsRecoverDfs PropsRecoverFile SpecTree TreeRun TreeFull SpecDisk DiskProofs PropsDest PropsDisk Rescue PropsRescueRead PropsRescueNode SpecMount PropsMount PropsMountDisk SpecAgree PropsRecoverEx.
From Coq Require Import List Permutation ZifyBool ZifyNat ZifyN.
Ltac Zify.zify_post_hook ::= Z.div_mod_to_equations.

Lemma at_sub t : forall p, tree_at t p = option_map top_node (tree_sub t p).
Proof.
  intros p. revert t. induction p as [|c p IH]; intros t; [reflexivity|]. cbn [tree_at tree_sub]. destruct t as [b|l|kids]; try reflexivity. destruct (pick kids c) as [t|]; [apply IH|reflexivity].
Qed.
Lemma sub_dir q A : forall o l kids ks, list_shape q A o l kids ks -> forall c sub, pick kids c = Some (TDir sub) -> exists o' d' ks', dir_shape q A o' d' sub ks'.
Proof.
  intros o l kids ks H. induction H as [o|o k di l n loc x kids ks _ _ _ _ _ _ IH|o k di l n loc x kids ks _ _ _ _ _ _ IH|o k di l n o' d' sub kids ks1 ks2 _ _ HD _ _ _ IH|o k di l n t loc kids ks _ _ _ _ _ _ IH]; intros c s HP; cbn [pick] in HP; try discriminate; try exact (IH c s HP);
    destruct (list_eq_dec Byte.byte_eq_dec n c); try (exact (IH c s HP)); try discriminate. assert (s = sub) by congruence. subst s. exists o', d', ks1. exact HD.
Qed.
Lemma names_once q A : forall p o d kids ks kk, dir_shape q A o d kids ks -> tree_sub (TDir kids) p = Some (TDir kk) -> NoDup (map fst kk).
Proof.
  induction p as [|c p IH]; intros o d kids ks kk HD HS; inversion HD as [? ? ? ks' HE HL E1 E2 E3 E4].
  - cbn in HS. assert (kk = kids) by congruence. subst kk. exact (list_nodup _ _ _ _ _ _ HL).
  - cbn [tree_sub] in HS. destruct (pick kids c) as [t|] eqn:EP; [|discriminate]. destruct t as [b|l|sub]; try (destruct p; cbn in HS; discriminate).
    destruct (sub_dir _ _ _ _ _ _ HL c sub EP) as (o' & d' & ks2 & HD2). exact (IH o' d' sub ks2 kk HD2 HS).
Qed.
Lemma same q dev D o d kids ks F P : dir_shape q D o d kids ks -> holds_tree F P (TDir kids) -> forall q' n p isd t, tree_sub (TDir kids) p = Some t -> isd = is_tdir t -> shows_node q' dev t n -> same_as q' dev n isd F (P ++ p).
Proof.
  intros HD HF q' n p isd t HS -> [HA HV]. unfold same_as. rewrite HF, at_sub, HS. cbn [option_map]. destruct t as [c|l|kk]; cbn [top_node is_tdir].
  - split; [reflexivity|]. split; [|exact HV]. destruct HA as (n' & x & H1 & _ & H2). exists n', (attr_of (n_inode n) x). split; [exact H1|]. exact H2.
  - split; [reflexivity|exact HV].
  - split; [reflexivity|]. intros ord HO. destruct HV as [HL _]. destruct (HL ord HO) as (n' & es & H1 & H2). exists n', es. split; [exact H1|]. pose proof (names_once _ _ _ _ _ _ _ _ HD HS) as HN.
    assert (HP : Permutation (map fst es) (map fst kk)) by (apply (Permutation_map fst) in H2; rewrite map_map in H2; exact H2).
    assert (HK : forall name, look F ((P ++ p) ++ [name]) = option_map top_node (pick kk name)).
    { intros name. rewrite <- app_assoc, HF, at_sub. destruct (pick kk name) as [t|] eqn:EP; [rewrite (sub_snoc _ _ _ _ _ HS EP); reflexivity|].
      assert (G : forall r t0, tree_sub t0 r = Some (TDir kk) -> tree_sub t0 (r ++ [name]) = None).
      { clear -EP. induction r as [|c r IH]; intros t0 H; cbn [app tree_sub] in *; [assert (t0 = TDir kk) by congruence; subst t0; rewrite EP; reflexivity|]. destruct t0 as [| |k0]; try discriminate. destruct (pick k0 c); [exact (IH _ H)|discriminate]. }
      rewrite (G _ _ HS). reflexivity. }
    split; [exact (Permutation_NoDup (Permutation_sym HP) HN)|]. split.
    + intros name. rewrite HK. assert (HI : In name (map fst es) <-> In name (map fst kk)) by (split; apply Permutation_in; [exact HP|exact (Permutation_sym HP)]). rewrite HI, <- pick_names. destruct (pick kk name); cbn [option_map]; split; congruence.
    + intros name mode Hin. rewrite HK. apply (Permutation_in _ H2) in Hin. apply in_map_iff in Hin as ([nm t] & E & Hin). cbn [fst snd] in E. assert (nm = name) by congruence. subst nm. rewrite (In_pick _ _ _ HN Hin). cbn [option_map].
      assert (mode = list_mode t) by congruence. subst mode. unfold list_mode, is_tdir. destruct t; cbn [top_node]; split; intros E0; try reflexivity; try discriminate; try congruence.
Qed.
(** C87.  The same image, scanned by recon; recover into a new directory; mount, with the same index and device.  Every node the kernel may come to
    know is the same as what recover wrote under its path, and everything recover wrote can be looked up. *)
Theorem C87_mount_shows_what_recover_restores : forall id D bs is cs kids ks E dest w P cfuel,
  big_enough D bs -> 101 <= bs -> length id = 16%nat -> id <> repeat x00 16 ->
  image_items id D bs is -> orderly is -> chunks_are is cs ->
  volume_shows (table is cs) D kids -> dir_shows (table is cs) D FSTreeObjectID FirstFreeObjectID kids ks -> mountable (table is cs) ks ->
  SpecContent.no_faults E -> 2^64 < Z.of_nat cfuel ->
  new_dest E (w_fs w) dest P -> paths_short dest kids -> (forall r, look (w_fs w) (P ++ r) = None) ->
  exists b ix,
    doScanFS true true PropsRecon.no_faults (file_dev D) bs id None = (Some b, XOk) /\
    OpenReadOnly (Some b) = Ok (Some b, Some ix) /\
    forall rfuel, (length b + 1 < rfuel)%nat -> let q := ix_queries rfuel b (ix_Generation ix) in
    exists fuel w' v, doRecoverFiles fuel cfuel E (file_reader D) q false dest w = (w', Ret (true, v)) /\ holds_tree (w_fs w') P (TDir kids) /\
      (forall T p isd n, session q T -> In (p, isd, n) T -> same_as q (file_reader D) n isd (w_fs w') (P ++ p)) /\
      (forall T p, session q T -> (exists n, In ([], true, n) T) -> look (w_fs w') (P ++ p) <> None -> exists T' isd n, session q T' /\ In (p, isd, n) T').
Proof.
  intros id D bs is cs kids ks E dest w P cfuel HB Hb Hlen Hid HI HO HC HV HD HM HE Hcf HP HPS HN.
  assert (HF : part_of_tree (w_fs w) P (TDir kids)) by (intros r nd Hr; rewrite HN in Hr; discriminate). assert (HR : replaceable false (w_fs w) P (TDir kids)) by (right; intros r nd Hr; rewrite HN in Hr; discriminate).
  destruct (C69_recon_then_recover id D bs is cs kids E false dest w P cfuel HB Hb Hlen Hid HI HO HC HV HE Hcf HP HPS HF HR) as (b & ix & R1 & R2 & R3 & R4).
  destruct (C70_recon_then_mount id D bs is cs kids ks (file_reader D) HB Hb Hlen Hid HI HO HC HD HM (file_reader_good D)) as (b' & ix' & S1 & S2 & _ & S4).
  assert (b' = b) by congruence. subst b'. assert (ix' = ix) by congruence. subst ix'. exists b, ix. split; [exact R1|]. split; [exact R2|]. intros rfuel Hr q. destruct (R4 rfuel Hr) as (f0 & R5). destruct (R5 f0 (le_n _)) as (w' & v & evs & Q1 & Q2 & _). destruct (S4 rfuel Hr) as [V1 V2]. fold q in V1, V2, Q1.
  exists f0, w', v. split; [exact Q1|]. split; [exact Q2|]. split.
  - intros T p isd n HS Hin. destruct (V1 T p isd n HS Hin) as (t & E1 & E2 & E3). exact (same _ _ _ _ _ _ _ _ _ HD Q2 q n p isd t E1 E2 E3).
  - intros T p HS HRt HL. rewrite Q2, at_sub in HL. destruct (tree_sub (TDir kids) p) as [t|] eqn:ET; [|cbn in HL; congruence]. destruct (V2 T p t HS HRt ET) as (T' & n & H1 & _ & H2). exists T', (is_tdir t), n. split; [exact H1|exact H2].
Qed.
Print Assumptions C87_mount_shows_what_recover_restores.

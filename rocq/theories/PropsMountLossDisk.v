(** C82: scan a damaged image, then mount the index with the image as device. *)
From Verif Require Import Go GoProofs Layout LayoutProofs SpecLayout LeafProofs StructProofs PropsLayout KeyFmt KeyProofs Bolt Store StoreProofs SpecStore RangeProofs PropsStore PropsRange Session PropsSession IoUtil Recon PropsRecon PropsReconEx RangeItems.
From Verif Require Import PropsPath ToString Fs Recover SpecFs SpecContent SpecTree SpecDisk DiskProofs PropsDest PropsDisk Rescue PropsRescueRead PropsRescueNode SpecMount PropsMount PropsMountDisk.
From Verif Require Import SpecDamage SpecLoss LossProofs PropsLossDisk SpecMountLoss PropsMountLoss.
From Coq Require Import List Permutation ZifyBool ZifyNat ZifyN.
Ltac Zify.zify_post_hook ::= Z.div_mod_to_equations.

(** C82.  [D], [is]: the undamaged image and its items, which describe the tree [kids]; [D'], [is']: the damaged
    image and the items left in it.  Recon of [D'] succeeds; whatever the kernel asks the mount of the index it wrote:
    every node stands for a part of the original tree and answers for what is left of it, and everything that is left can be looked up. *)
Theorem C82_damaged_image_mounted : forall id D D' bs is is' cs kids ks,
  dir_shows (table is cs) D FSTreeObjectID FirstFreeObjectID kids ks -> mountable (table is cs) ks ->
  big_enough D' bs -> 101 <= bs -> length id = 16%nat -> id <> repeat x00 16 -> zlen D' = zlen D ->
  image_items id D' bs is' -> newest_left is is' -> orderly is' -> chunks_are is' cs ->
  exists b ix,
    doScanFS true true PropsRecon.no_faults (file_dev D') bs id None = (Some b, XOk) /\
    OpenReadOnly (Some b) = Ok (Some b, Some ix) /\ ix_tx ix = Some (mkTx false b) /\
    forall rfuel, (length b + 1 < rfuel)%nat -> let q := ix_queries rfuel b (ix_Generation ix) in
    (forall T p isd n, session q T -> In (p, isd, n) T ->
       exists t, tree_sub (TDir kids) p = Some t /\ isd = is_tdir t /\ found (table is' cs) p (n_owner n, n_inode n) isd /\
         shows_left (table is cs) (table is' cs) q D D' (fun _ => False) (file_reader D') t n) /\
    (forall T p k isd, session q T -> (exists n, In ([], true, n) T) -> found (table is' cs) p k isd ->
       exists T' n, session q T' /\ incl (map fst T) (map fst T') /\ In (p, isd, n) T' /\ (n_owner n, n_inode n) = k).
Proof.
  intros id D D' bs is is' cs kids ks HS HMo HB Hb Hlen Hid HD HI HNL HO HC.
  set (o := mkOptions false bs id (2^64 - 1) false). set (m := newIndexMetadata o).
  destruct (open_none bs id Hlen) as (ix0 & HOp). fold o in HOp. fold m in HOp.
  destruct (recon_run id D' bs None (Some [(metadataKey, m)]) ix0 HB Hid HOp) as (b0' & E0 & HRun). injection E0 as <-.
  rewrite (trace_items id D' bs is' HB Hb HI) in HRun. cbn [fst snd] in HRun. destruct (items_wf _ _ _ _ HI) as [W1 W2].
  assert (Op0 : opened [(metadataKey, m)]) by (split; [split; [cbn; auto|repeat constructor]|exists m; left; reflexivity]).
  set (b := fold_left put_ins is' [(metadataKey, m)]) in *.
  assert (Op : opened b) by (apply puts_opened; assumption).
  assert (G : get b metadataKey = Some m) by (unfold b; rewrite PropsReconAny.get_metadata_puts by assumption; apply get_In; [apply Op0|left; reflexivity]).
  change m with (md_record 20190809 (u32 (o_BlockSize o)) (o_FSID o) (o_Generation o)) in G.
  destruct (C25_open_existing ro_options b _ _ _ _ (proj1 Op) G) as [(_ & ix & HX & _ & _ & HG & HT & _)|[HN _]]; [unfold is_u64; lia|apply u32_range|exact Hlen| |].
  2:{ destruct HN. split; [lia|]. split; [right; reflexivity|left; reflexivity]. }
  exists b, ix. split; [exact HRun|]. split; [exact HX|]. split; [exact HT|]. intros rfuel Hr. cbv zeta.
  assert (HIV := items_value id D' bs is' HI). assert (HAg : agrees (table is' cs) (ix_queries rfuel b (ix_Generation ix))) by (rewrite HG; change (o_Generation ro_options) with max64; apply table_agrees; assumption).
  set (qi := ix_queries rfuel b (ix_Generation ix)) in *. clearbody qi. clear HRun HX HG HT Op G HOp.
  pose proof (table_misses is is' HNL cs) as HM. set (q := table is cs) in *. set (q' := table is' cs) in *.
  assert (HLd : forall o d e loc, In e (st_items (q_dirItems q' o d)) -> DirItem_Location (snd e) = Ok loc -> fine (ObjectID loc)) by (apply table_leads; assumption). clearbody q q'.
  set (P := fun o i => fine o /\ fine i).
  assert (F6 : fine FirstFreeObjectID) by (unfold fine; change FirstFreeObjectID with 256; lia). assert (F5 : fine FSTreeObjectID) by (unfold fine; change FSTreeObjectID with 5; lia).
  pose proof HAg as (HQ & HPh & _).
  assert (HA : forall o i, P o i -> q_dirItems qi o i = q_dirItems q' o i /\ q_inode qi o i = q_inode q' o i /\ q_extents qi o i = q_extents q' o i /\ q_extent0 qi o i = q_extent0 q' o i) by (intros o1 i1 [A B]; destruct (HQ o1 i1 A B) as (Q1 & Q2 & Q3 & Q4); auto).
  assert (HPh' : forall l p, q_physical q l = Ok p -> q_physical qi l = Ok p) by (intros l p H; apply HPh, (ms_phys _ _ HM); exact H).
  assert (HP0 : P FSTreeObjectID FirstFreeObjectID) by (split; assumption).
  assert (HP1 : forall o d e loc, P o d -> In e (st_items (q_dirItems q' o d)) -> DirItem_Location (snd e) = Ok loc -> P (fst (child_key o loc)) (snd (child_key o loc))).
  { intros o1 d e loc [A B] He Hl. pose proof (HLd _ _ _ _ He Hl) as FL. unfold child_key. destruct (KType loc =? RootItemKey); cbn [fst snd]; split; assumption. }
  assert (HR : node_is q D FSTreeObjectID FirstFreeObjectID (TDir kids)). { inversion HS as [? ? ? ks' HE HL E1 E2 E3 E4]; subst. destruct (HMo FSTreeObjectID FirstFreeObjectID (or_introl eq_refl)) as [[x HX] _]. exists x. split; [exact HX|]. eexists. split; [exact HS|exact HMo]. }
  assert (HDm : damaged (fun _ => False) D' (file_reader D')) by (destruct (PropsRecoverEx.file_reader_good D') as [A B]; split; [exact A|intros n off H1 H2 H3 _; exact (B n off H1 H2 H3)]).
  split.
  - intros T p isd n HSn HIn. pose proof (session_left q q' qi D P HM HA HPh' HP0 HP1 kids HR T HSn) as HF. rewrite Forall_forall in HF. destruct (HF _ HIn) as (t & o1 & i1 & A1 & A2 & A3 & A4 & A5 & A6).
    pose proof (served_inv _ _ _ _ A4) as (H1 & H2 & _). rewrite H1, H2. exists t. split; [exact A1|]. split; [exact A2|]. split; [exact A6|].
    exact (view_left q q' qi D D' (fun _ => False) (file_reader D') P HM HA HPh' HP1 HDm (proj2 (proj2 HB)) HD o1 i1 n t A3 A4 A5).
  - intros T p k isd HSn HIn HFd. destruct (found_known q q' qi D P HM HA HPh' HP0 HP1 kids HR p k isd HFd) as [_ H]. destruct (H T HSn HIn) as (T' & n & S1 & S2 & S3 & S4).
    exists T', n. pose proof (served_inv _ _ _ _ S4) as (H1 & H2 & _). rewrite H1, H2, <- surjective_pairing. auto.
Qed.
Print Assumptions C82_damaged_image_mounted.

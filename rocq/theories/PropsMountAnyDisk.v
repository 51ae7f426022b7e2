(** C84: scan any image whose items can be decoded, then mount the index. *)
From Verif Require Import Go GoProofs Layout LayoutProofs SpecLayout LeafProofs StructProofs PropsLayout KeyFmt KeyProofs Bolt Store StoreProofs SpecStore RangeProofs PropsStore PropsRange Session PropsSession IoUtil Recon PropsRecon PropsReconEx RangeItems.
From Verif Require Import PropsPath ToString Fs Recover SpecFs SpecContent SpecTree SpecDisk DiskProofs PropsDest PropsDisk SpecLoss Rescue PropsRescueRead PropsRescueNode SpecMount PropsMount SpecMountAny PropsMountAny.
From Coq Require Import List Permutation ZifyBool ZifyNat ZifyN.
Ltac Zify.zify_post_hook ::= Z.div_mod_to_equations.

(** what an item stands for has a key below the largest *)
Lemma reach_fine q contents inodes : holds q contents inodes ->
  (forall o d e loc, In e (st_items (q_dirItems q o d)) -> DirItem_Location (snd e) = Ok loc -> fine (ObjectID loc)) ->
  forall o i, reach contents o i -> fine o /\ fine i.
Proof.
  intros HH HL o i HR. assert (F6 : fine 256) by (unfold fine; lia). assert (F5 : fine 5) by (unfold fine; lia).
  induction HR as [|o d x HR [IH1 IH2] HX]; [split; assumption|].
  assert (F : fine (k_objectid (di_location x))).
  { destruct (HH o d HR) as [[_ HF] _]. clear -HF HX HL. specialize (HL o d). revert HX. induction HF as [|e y l ds [A B] _ IH]; [intros []|]. intros [->|HX].
    - destruct (C06_dir_item x (snd e) A) as (L1 & _). exact (HL e _ (or_introl eq_refl) L1).
    - apply IH; [|exact HX]. intros e' loc He. apply HL. right. exact He. }
  unfold leads_to. destruct (k_type (di_location x) =? 132); cbn [fst snd]; split; assumption.
Qed.
(** C84.  [contents], [inodes]: what the items of the image say.  Recon succeeds and the mount of its
    index behaves as in C83. *)
Theorem C84_recon_then_mount_any : forall id D bs is cs dev contents inodes,
  big_enough D bs -> 101 <= bs -> length id = 16%nat -> id <> repeat x00 16 ->
  image_items id D bs is -> orderly is -> chunks_are is cs ->
  holds (table is cs) contents inodes -> reads_from D dev ->
  exists b ix,
    doScanFS true true PropsRecon.no_faults (file_dev D) bs id None = (Some b, XOk) /\
    OpenReadOnly (Some b) = Ok (Some b, Some ix) /\ ix_tx ix = Some (mkTx false b) /\
    forall rfuel, (length b + 1 < rfuel)%nat -> let q := ix_queries rfuel b (ix_Generation ix) in
    (forall T p isd n, session q T -> In (p, isd, n) T -> at_path contents inodes p (n_owner n, n_inode n) isd /\ shows_key (table is cs) q D dev contents inodes n) /\
    (forall T p k isd, session q T -> (exists n, In ([], true, n) T) -> at_path contents inodes p k isd ->
       exists T' n, session q T' /\ incl (map fst T) (map fst T') /\ In (p, isd, n) T' /\ (n_owner n, n_inode n) = k).
Proof.
  intros id D bs is cs dev contents inodes HB Hb Hlen Hid HI HO HC HH HDv.
  set (o := mkOptions false bs id (2^64 - 1) false). set (m := newIndexMetadata o).
  destruct (open_none bs id Hlen) as (ix0 & HOp). fold o in HOp. fold m in HOp.
  destruct (recon_run id D bs None (Some [(metadataKey, m)]) ix0 HB Hid HOp) as (b0' & E0 & HRun). injection E0 as <-.
  rewrite (trace_items id D bs is HB Hb HI) in HRun. cbn [fst snd] in HRun. destruct (items_wf _ _ _ _ HI) as [W1 W2].
  assert (Op0 : opened [(metadataKey, m)]) by (split; [split; [cbn; auto|repeat constructor]|exists m; left; reflexivity]).
  set (b := fold_left put_ins is [(metadataKey, m)]) in *.
  assert (Op : opened b) by (apply puts_opened; assumption).
  assert (G : get b metadataKey = Some m) by (unfold b; rewrite PropsReconAny.get_metadata_puts by assumption; apply get_In; [apply Op0|left; reflexivity]).
  change m with (md_record 20190809 (u32 (o_BlockSize o)) (o_FSID o) (o_Generation o)) in G.
  destruct (C25_open_existing ro_options b _ _ _ _ (proj1 Op) G) as [(_ & ix & HX & _ & _ & HG & HT & _)|[HN _]]; [unfold is_u64; lia|apply u32_range|exact Hlen| |].
  2:{ destruct HN. split; [lia|]. split; [right; reflexivity|left; reflexivity]. }
  exists b, ix. split; [exact HRun|]. split; [exact HX|]. split; [exact HT|]. intros rfuel Hr. cbv zeta.
  assert (HIV := items_value id D bs is HI). assert (HAg : agrees (table is cs) (ix_queries rfuel b (ix_Generation ix))) by (rewrite HG; change (o_Generation ro_options) with max64; apply table_agrees; assumption).
  assert (HF : forall o i, reach contents o i -> fine o /\ fine i).
  { apply (reach_fine (table is cs) contents inodes HH). intros o1 d e loc. apply table_leads; assumption. }
  set (qi := ix_queries rfuel b (ix_Generation ix)) in *. clearbody qi. destruct HAg as (HQ & HPh & _).
  apply mounted_any; [|exact HPh|exact HH|exact HDv|apply HB].
  intros o1 i1 HR. destruct (HF o1 i1 HR) as [A B]. destruct (HQ o1 i1 A B) as (Q1 & Q2 & Q3 & Q4). auto.
Qed.
Print Assumptions C84_recon_then_mount_any.

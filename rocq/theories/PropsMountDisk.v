(** C70: recon and then mount; a concrete volume. *)
From Verif Require Import Go GoProofs Layout LayoutProofs SpecLayout StructProofs PropsLayout KeyFmt KeyProofs Bolt Store StoreProofs SpecStore RangeProofs PropsStore PropsRange MkIndex Session PropsSession IoUtil Recon PropsRecon PropsReconEx.
From Verif Require Import PropsPath Fs Recover SpecFs SpecContent SpecTree SpecDisk DiskProofs PropsRecoverDfs PropsRecoverFile PropsRecoverEx PropsTreeEx Rescue PropsRescueRead PropsRescueNode SpecMount PropsMount PropsDisk.
From Coq Require Import List Permutation ZifyBool ZifyNat ZifyN.

(** ** answering like the table is enough *)
Section Agree.
  Variables (q q' : queries) (D : list byte).
  Hypothesis HA : agrees q q'.
  Hypothesis HL : forall o d e loc, In e (st_items (q_dirItems q o d)) -> DirItem_Location (snd e) = Ok loc -> fine (ObjectID loc).
  Lemma shown_fine :
    (forall o d kids ks, dir_shows q D o d kids ks -> fine o -> fine d -> forall k, In k ks -> fine (fst k) /\ fine (snd k)) /\
    (forall o l kids ks, list_shows q D o l kids ks -> fine o -> leads l -> forall k, In k ks -> fine (fst k) /\ fine (snd k)).
  Proof using HL.
    apply (TreeRun.shows_mutind q (shown q D) (fun o d kids ks => fine o -> fine d -> forall k, In k ks -> fine (fst k) /\ fine (snd k)) (fun o l kids ks => fine o -> leads l -> forall k, In k ks -> fine (fst k) /\ fine (snd k))).
    - intros o d kids ks _ _ IH Fo Fd k [<-|Hk]; [auto|]. apply IH; [exact Fo|intros e loc He Hloc; exact (HL o d e loc He Hloc)|exact Hk].
    - intros o _ _ k [].
    - intros o k di l n loc c kids ks _ _ _ _ _ _ IH Fo Hl. apply IH; [exact Fo|]. intros e loc' He. apply Hl. right. exact He.
    - intros o k di l n loc c kids ks _ _ _ _ _ _ IH Fo Hl. apply IH; [exact Fo|]. intros e loc' He. apply Hl. right. exact He.
    - intros o k di l n o' d' sub kids ks1 ks2 _ ND _ IH1 _ _ _ IH2 Fo Hl x Hx. apply in_app_or in Hx as [Hx|Hx].
      + destruct ND as (nm & t & loc & _ & _ & _ & Hloc & HK). pose proof (Hl (k, di) loc (or_introl eq_refl) Hloc) as FL.
        destruct HK as [[_ E]|(_ & _ & E)]; injection E as -> ->; (apply IH1; [| |exact Hx]); try assumption. unfold fine. change FirstFreeObjectID with 256. lia.
      + apply IH2; [exact Fo| |exact Hx]. intros e loc' He. apply Hl. right. exact He.
    - intros o k di l n t loc kids ks _ _ _ _ _ _ IH Fo Hl. apply IH; [exact Fo|]. intros e loc' He. apply Hl. right. exact He.
  Qed.
  Lemma inode_agrees o i x : fine o -> fine i -> has_inode q o i x -> has_inode q' o i x.
  Proof using HA. intros Fo Fi (ii & A & B). destruct HA as (HQ & _). destruct (HQ o i Fo Fi) as (_ & Q2 & _). exists ii. rewrite Q2. auto. Qed.
  Lemma mountable_agrees ks : (forall k, In k ks -> fine (fst k) /\ fine (snd k)) -> mountable q ks -> mountable q' ks.
  Proof using HA HL.
    intros HF HM o d Hin. destruct (HF _ Hin) as [Fo Fd]. cbn [fst snd] in *. destruct (HM o d Hin) as ((x & HX) & HI). split; [exists x; apply inode_agrees; assumption|].
    destruct HA as (HQ & HP & _). destruct (HQ o d Fo Fd) as (Q1 & _). rewrite Q1. intros e He. destruct (HI e He) as (t & loc & y & M1 & M2 & M3 & M4). pose proof (HL o d e loc He M2) as FL.
    exists t, loc, y. split; [exact M1|]. split; [exact M2|]. split.
    - apply inode_agrees; [| |exact M3]; unfold child_key; destruct (KType loc =? RootItemKey); cbn [fst snd]; try assumption. unfold fine. change FirstFreeObjectID with 256. lia.
    - destruct (HQ o (ObjectID loc) Fo FL) as (_ & _ & Q3 & Q4). destruct M4 as [M4|[(M4 & M5 & xs & M6 & M7)|M4]]; [left; exact M4| |right; right; rewrite Q4; exact M4].
      right; left. split; [exact M4|]. split; [exact M5|]. exists xs. rewrite Q3. split; [|exact M7]. clear -M6 HA. induction M6; constructor; [apply (extent_agrees q q' HA); assumption|assumption].
  Qed.
End Agree.

(** ** the whole way: scan an image, then mount the index with the image as device *)
Theorem C70_recon_then_mount : forall id D bs is cs kids ks dev,
  big_enough D bs -> 101 <= bs -> length id = 16%nat -> id <> repeat x00 16 ->
  image_items id D bs is -> orderly is -> chunks_are is cs ->
  dir_shows (table is cs) D FSTreeObjectID FirstFreeObjectID kids ks -> mountable (table is cs) ks -> good_device D dev ->
  exists b ix,
    doScanFS true true PropsRecon.no_faults (file_dev D) bs id None = (Some b, XOk) /\
    OpenReadOnly (Some b) = Ok (Some b, Some ix) /\ ix_tx ix = Some (mkTx false b) /\
    forall rfuel, (length b + 1 < rfuel)%nat -> let q := ix_queries rfuel b (ix_Generation ix) in
    (forall T p isd n, session q T -> In (p, isd, n) T -> exists t, tree_sub (TDir kids) p = Some t /\ isd = is_tdir t /\ shows_node q dev t n) /\
    (forall T p t, session q T -> (exists n, In ([], true, n) T) -> tree_sub (TDir kids) p = Some t -> exists T' n, session q T' /\ incl (map fst T) (map fst T') /\ In (p, is_tdir t, n) T').
Proof.
  intros id D bs is cs kids ks dev HB Hb Hlen Hid HI HD HC HS HM HDv.
  set (o := mkOptions false bs id (2^64 - 1) false). set (m := newIndexMetadata o).
  destruct (open_none bs id Hlen) as (ix0 & HO). fold o in HO. fold m in HO.
  destruct (recon_run id D bs None (Some [(metadataKey, m)]) ix0 HB Hid HO) as (b0' & E0 & HRun). injection E0 as <-.
  rewrite (trace_items id D bs is HB Hb HI) in HRun. cbn [fst snd] in HRun. destruct (items_wf _ _ _ _ HI) as [W1 W2].
  assert (Op0 : opened [(metadataKey, m)]) by (split; [split; [cbn; auto|repeat constructor]|exists m; left; reflexivity]).
  set (b := fold_left put_ins is [(metadataKey, m)]) in *.
  assert (Op : opened b) by (apply puts_opened; assumption).
  assert (G : get b metadataKey = Some m) by (unfold b; rewrite PropsReconAny.get_metadata_puts by assumption; apply get_In; [apply Op0|left; reflexivity]).
  change m with (md_record 20190809 (u32 (o_BlockSize o)) (o_FSID o) (o_Generation o)) in G.
  destruct (C25_open_existing ro_options b _ _ _ _ (proj1 Op) G) as [(_ & ix & HX & _ & _ & HG & HT & _)|[HN _]]; [unfold is_u64; lia|apply u32_range|exact Hlen| |].
  2:{ destruct HN. split; [lia|]. split; [right; reflexivity|left; reflexivity]. }
  exists b, ix. split; [exact HRun|]. split; [exact HX|]. split; [exact HT|]. intros rfuel Hr. cbv zeta. rewrite HG. change (o_Generation ro_options) with max64.
  assert (HIV := items_value id D bs is HI). assert (HAg : agrees (table is cs) (ix_queries rfuel b max64)) by (apply table_agrees; assumption).
  assert (HLd : forall o d e loc, In e (st_items (q_dirItems (table is cs) o d)) -> DirItem_Location (snd e) = Ok loc -> fine (ObjectID loc)) by (intros; eapply table_leads; eassumption).
  assert (F5 : fine FSTreeObjectID) by (unfold fine; change FSTreeObjectID with 5; lia). assert (F6 : fine FirstFreeObjectID) by (unfold fine; change FirstFreeObjectID with 256; lia).
  apply (C70_mounted_tree (ix_queries rfuel b max64) D dev kids ks).
  - apply (proj1 (shows_agree (table is cs) _ HAg HLd (shown (table is cs) D) (shown _ D) (file_agrees _ _ D HAg) (link_agrees _ _ D HAg))); assumption.
  - apply (mountable_agrees (table is cs) _ HAg HLd); [|exact HM]. exact (proj1 (shown_fine (table is cs) D HLd) _ _ _ _ HS F5 F6).
  - exact HDv.
  - apply HB.
Qed.
Print Assumptions C70_recon_then_mount.

(** Property C79: a recon run that fails or is killed can be repeated. *)
From Verif Require Import Go GoProofs Layout LayoutProofs SpecLayout LeafProofs StructProofs PropsLayout KeyFmt KeyProofs Bolt Store StoreProofs SpecStore RangeProofs PropsStore Session PropsSession IoUtil Recon PropsRecon PropsReconAny PropsReconEx PropsReconFault.
From Coq Require Import ZifyBool ZifyNat ZifyN.
Ltac Zify.zify_post_hook ::= Z.div_mod_to_equations.

(** ** specification *)
(** A device with content [content] whose size may be impossible to find out and whose reads may fail: a read
    of a block delivers what is there or fails with an error other than the end of the file. *)
Definition flaky_dev (content : list byte) (bs : Z) (dev : device) : Prop :=
  (dev_seek dev = (zlen content, true) \/ snd (dev_seek dev) = false) /\
  forall off, dev_read dev bs off = file_reader content bs off \/ exists d, dev_read dev bs off = (d, Some EOther).
(** Any number of runs of recon, one after the other, on a metadata file [d], that leave [d'].  In every run
    any reads, and any commits to the metadata file, may fail.  A process killed between two commits leaves the same
    file as one whose next commit fails (recon gives up then), so killed runs are among these. *)
Inductive runs (id content : list byte) (bs : Z) : disk -> disk -> Prop :=
| runs_none d : runs id content bs d d
| runs_one d d1 d' dev okopen okend okf st : runs id content bs d d1 -> flaky_dev content bs dev ->
    doScanFS okopen okend okf dev bs id d1 = (d', st) -> runs id content bs d d'.

(** ** proofs *)
Lemma file_blocks content bs : big_enough content bs -> forall n k, Z.of_nat (k + n) = image_blocks content bs ->
  device_blocks (file_reader content) bs (zlen content - zlen content mod bs) (65536 + bs * (Z.of_nat k + 1)) (map (image_block content bs) (seq k n)) true.
Proof.
  intros HB. pose proof HB as (H0 & H1 & H2). pose proof (Z.mod_pos_bound (zlen content) bs H0) as Hm.
  assert (HX : forall x, x < image_blocks content bs <-> bs * x + bs <= zlen content - 65536 - bs).
  { intros x. unfold image_blocks. split; intros H.
    - pose proof (Z.mul_div_le (zlen content - 65536 - bs) bs H0). nia.
    - assert (x + 1 <= (zlen content - 65536 - bs) / bs); [|lia]. apply Z.div_le_lower_bound; lia. }
  set (m := zlen content mod bs) in *. clearbody m.
  induction n as [|n IH]; intros k Hk; cbn [seq map].
  - assert (HN : ~ Z.of_nat k < image_blocks content bs) by lia. rewrite HX in HN. set (off := 65536 + bs * (Z.of_nat k + 1)) in *. assert (Ho : 0 <= off /\ zlen content < off + bs) by (unfold off; nia). clearbody off.
    destruct (Z_lt_le_dec off (zlen content - m)) as [Hl|Hl]; [|apply db_end; exact Hl].
    unfold file_reader. eapply db_eof; [exact Hl|]. replace (off <? 0) with false by lia. f_equal.
    rewrite zlen_firstn_le by lia. rewrite zlen_skipn_le by lia. replace (Z.min bs (zlen content - off) <? bs) with true by lia. reflexivity.
  - assert (HK : Z.of_nat k < image_blocks content bs) by lia. pose proof (image_block_len content bs k HB HK) as HL. rewrite HX in HK.
    apply db_block.
    + nia.
    + unfold file_reader. replace (65536 + bs * (Z.of_nat k + 1) <? 0) with false by nia. unfold image_block, sub in *. rewrite HL. replace (bs <? bs) with false by lia. reflexivity.
    + exact HL.
    + replace (65536 + bs * (Z.of_nat k + 1) + bs) with (65536 + bs * (Z.of_nat (S k) + 1)) by lia. apply IH. lia.
Qed.
Lemma list_blocks id content bs n : forall k, list_trace id (map (image_block content bs) (seq k n)) = blocks_trace id content bs n k.
Proof.
  induction n as [|n IH]; intros k; cbn [seq map list_trace blocks_trace]; [reflexivity|]. rewrite IH. reflexivity.
Qed.
Lemma flaky_blocks content bs dev fin : flaky_dev content bs dev -> forall off bls ok, device_blocks (file_reader content) bs fin off bls ok ->
  exists bls' z ok', device_blocks (dev_read dev) bs fin off bls' ok' /\ bls = bls' ++ z.
Proof.
  intros [_ HR] off bls ok H. induction H as [off He|off d Hl Hr|off d Hl Hr|off bl bls ok Hl Hr Hz HD IH].
  - exists [], [], true. split; [apply db_end; exact He|reflexivity].
  - destruct (HR off) as [E|(d' & E)]; [exists [], [], true; split; [eapply db_eof; [exact Hl|rewrite E; exact Hr]|reflexivity]|exists [], [], false; split; [eapply db_err; [exact Hl|exact E]|reflexivity]].
  - destruct (HR off) as [E|(d' & E)]; exists [], [], false; (split; [eapply db_err; [exact Hl|first [exact E|rewrite E; exact Hr]]|reflexivity]).
  - destruct (HR off) as [E|(d' & E)].
    + destruct IH as (bls' & z & ok' & A & ->). exists (bl :: bls'), z, ok'. split; [apply db_block; [exact Hl|rewrite E; exact Hr|exact Hz|exact A]|reflexivity].
    + exists [], (bl :: bls), false. split; [eapply db_err; [exact Hl|exact E]|reflexivity].
Qed.
Lemma list_trace_prefix id bls z i : In i (fst (list_trace id bls)) -> In i (fst (list_trace id (bls ++ z))).
Proof.
  induction bls as [|bl bls IH]; cbn [list_trace app]; [intros []|]. destruct (block_trace id bl) as [is st]. destruct st; try (intros H; exact H).
  destruct (list_trace id bls) as [is1 st1], (list_trace id (bls ++ z)) as [is2 st2]. cbn [fst] in *. rewrite !in_app_iff. tauto.
Qed.
Lemma puts_over is a b : wf_bucket b -> incl a is -> fold_left put_ins is (fold_left put_ins a b) = fold_left put_ins is b.
Proof.
  intros W HI. destruct (puts_In is b W) as [W1 H1]. destruct (puts_In a b W) as [W3 H3]. destruct (puts_In is _ W3) as [W2 H2]. apply bucket_ext; [exact W2|exact W1|].
  intros e. rewrite H2, H1, H3. split.
  - intros [H|[[H|H] H']]; [tauto| |tauto]. exfalso. destruct H as (x & i & y & E & Ei & _). apply (H' i); [apply HI; rewrite E; apply in_or_app; right; left; reflexivity|]. rewrite Ei. reflexivity.
  - intros [H|[H H']]; [tauto|]. right. split; [|exact H']. right. split; [exact H|]. intros j Hj. apply H', HI, Hj.
Qed.
Lemma open_none_same ok bs id d d0 : openIndex ok (mkOptions false bs id max64 false) d = Ok (d0, None) -> d0 = d.
Proof.
  intros HO. unfold openIndex in HO. destruct (checkUpdateMetadata _ _ d) as [[d1 e]| |] eqn:EC; cbn [rbind] in HO; try discriminate. destruct e.
  - exfalso. assert (Hd1 : (exists b0, d1 = Some b0) /\ ok = true).
    { unfold checkUpdateMetadata in EC. cbn [o_ReadOnly orb] in EC. destruct d as [b|].
      - destruct (get b metadataKey) as [m|]; [|destruct ok; [injection EC as <-; eauto|discriminate]].
        destruct (check_metadata _ m) as [e'| |]; cbn [rbind] in EC; try discriminate. destruct e'; [|discriminate]. destruct ok; [injection EC as <-; eauto|discriminate].
      - destruct ok; [injection EC as <-; eauto|discriminate]. }
    destruct Hd1 as [[b0 ->] ->]. unfold ensureTx, begin_tx in HO. cbn [ix_tx o_ReadOnly negb andb ix_readonly ix_disk ix_bucket ix_txNum ix_Generation o_Generation] in HO. discriminate.
  - injection HO as <-. unfold checkUpdateMetadata in EC. cbn [o_ReadOnly orb] in EC. destruct d as [b|].
    + destruct (get b metadataKey) as [m|]; [|destruct ok; [discriminate|injection EC as <-; reflexivity]].
      destruct (check_metadata _ m) as [e'| |]; cbn [rbind] in EC; try discriminate. destruct e'; [destruct ok; [discriminate|]|]; injection EC as <-; reflexivity.
    + destruct ok; [discriminate|injection EC as <-; reflexivity].
Qed.
Lemma open_some_ok ok bs id d d0 ix : openIndex ok (mkOptions false bs id max64 false) d = Ok (d0, Some ix) -> ok = true.
Proof.
  intros HO. destruct ok; [reflexivity|]. exfalso. unfold openIndex in HO. destruct (checkUpdateMetadata _ _ d) as [[d1 e]| |] eqn:EC; cbn [rbind] in HO; try discriminate. destruct e; [|discriminate].
  unfold checkUpdateMetadata in EC. cbn [o_ReadOnly orb] in EC. destruct d as [b|]; [|discriminate]. destruct (get b metadataKey) as [m|]; [|discriminate]. destruct (check_metadata _ m) as [e'| |]; cbn [rbind] in EC; try discriminate. destruct e'; discriminate.
Qed.
(** one run on any metadata file *)
Lemma one_run id content bs dev okopen okend okf d d' st : big_enough content bs -> id <> repeat x00 16 -> flaky_dev content bs dev ->
  doScanFS okopen okend okf dev bs id d = (d', st) ->
  d' = d \/ exists b0 ix0 a, openIndex true (mkOptions false bs id max64 false) d = Ok (Some b0, Some ix0) /\ d' = Some (fold_left put_ins a b0) /\ incl a (fst (image_trace id content bs)).
Proof.
  intros HB Hid HF HR. pose proof HB as (H0 & H1 & H2). destruct (proj1 HF) as [HS|HS].
  2:{ left. unfold doScanFS in HR. rewrite (proj2 (bytes_eqb_neq _ _) Hid) in HR. unfold CheckDeviceSize in HR. destruct (dev_seek dev) as [s ok]. cbn [snd] in HS. subst ok. cbn [negb] in HR. congruence. }
  assert (HZ : sized dev bs (zlen content)) by (split; [exact HS|]; split; [lia|]; split; lia).
  destruct (openIndex okopen (mkOptions false bs id max64 false) d) as [[d0 [ix0|]]| |] eqn:EO.
  - right. assert (okopen = true) as -> by exact (open_some_ok _ _ _ _ _ _ EO).
    pose proof (image_blocks_nonneg content bs HB) as HN. pose proof (file_blocks content bs HB (Z.to_nat (image_blocks content bs)) 0 ltac:(lia)) as FB.
    replace (65536 + bs * (Z.of_nat 0 + 1)) with (65536 + bs) in FB by lia. destruct (flaky_blocks content bs dev _ HF _ _ _ FB) as (bls' & z & ok' & DB & EB).
    destruct (scan_faults false true okend okf id dev bs (zlen content) d d0 ix0 bls' ok' ltac:(discriminate) HZ Hid EO DB) as (b0 & d2 & st2 & -> & E & HR2).
    rewrite E in HR. injection HR as <- <-.
    assert (HI : incl (fst (list_trace id bls')) (fst (image_trace id content bs))) by (intros i Hi; unfold image_trace; rewrite <- list_blocks, EB; apply list_trace_prefix; exact Hi).
    exists b0, ix0. destruct HR2 as [(_ & _ & ->)|[(C & _)|(_ & _ & a & y & Ea & ->)]]; [|discriminate|].
    + eexists. split; [exact EO|]. split; [reflexivity|exact HI].
    + exists a. split; [exact EO|]. split; [reflexivity|]. intros i Hi. apply HI. rewrite Ea. apply in_or_app. left. exact Hi.
  - left. assert (d0 = d) as -> by exact (open_none_same _ _ _ _ _ EO). unfold doScanFS in HR. rewrite (proj2 (bytes_eqb_neq _ _) Hid), HS, (size_check content bs HB) in HR. cbn [negb] in HR. replace (bs =? 0) with false in HR by lia. rewrite EO in HR. congruence.
  - left. unfold doScanFS in HR. rewrite (proj2 (bytes_eqb_neq _ _) Hid), HS, (size_check content bs HB) in HR. cbn [negb] in HR. replace (bs =? 0) with false in HR by lia. rewrite EO in HR. congruence.
  - left. unfold doScanFS in HR. rewrite (proj2 (bytes_eqb_neq _ _) Hid), HS, (size_check content bs HB) in HR. cbn [negb] in HR. replace (bs =? 0) with false in HR by lia. rewrite EO in HR. congruence.
Qed.
(** ** C79 *)
(** However often recon failed or was killed before: an undisturbed run ends like, and leaves the same file as, an
    undisturbed run at the beginning. *)
Theorem C79_run_again : forall id content bs d d1 d' st,
  big_enough content bs -> 101 <= bs < 2^32 -> length id = 16%nat -> id <> repeat x00 16 -> (forall b, d = Some b -> wf_bucket b) ->
  (forall is c, scanned id content bs 0 is c -> forall i, In i is -> ~ reserved i) ->
  runs id content bs d d1 ->
  doScanFS true true no_faults (file_dev content) bs id d = (d', st) ->
  doScanFS true true no_faults (file_dev content) bs id d1 = (d', st).
Proof.
  intros id content bs d d1 d' st HB Hb Hlen Hid Hwf HN HR HC. set (o := mkOptions false bs id max64 false).
  destruct (image_scanned id content bs HB Hb) as (is & c & HS & HT). specialize (HN is c HS). destruct (scanned_wf _ _ _ _ _ _ HB HS HN) as [W1 W2].
  assert (HI : d1 = d \/ exists b0 ix0 a, openIndex true o d = Ok (Some b0, Some ix0) /\ d1 = Some (fold_left put_ins a b0) /\ incl a is).
  { clear HC. induction HR as [d|d d1 d2 dev okopen okend okf st' HR IH HF HD]; [left; reflexivity|]. specialize (IH Hwf).
    assert (HO := one_run id content bs dev okopen okend okf d1 d2 st' HB Hid HF HD). rewrite HT in HO. cbn [fst] in HO. destruct IH as [->|(b0 & ix0 & a & IO & -> & Ia)].
    - destruct HO as [->|HO]; [left; reflexivity|right; exact HO].
    - right. destruct HO as [->|(b1 & ix1 & a1 & HO & -> & Ia1)]; [exists b0, ix0, a; auto|].
      pose proof (opened_after_open d o b0 ix0 Hwf Hlen IO) as Op. assert (Wa : Forall wf_ins a) by (rewrite Forall_forall in *; auto).
      destruct (reopen bs id d b0 ix0 (fold_left put_ins a b0)) as (ix & HO2); try assumption; [lia|apply puts_opened; assumption|apply get_metadata_puts; assumption|].
      change (2^64 - 1) with max64 in HO2. rewrite HO2 in HO. injection HO as <- <-. exists b0, ix0, (a ++ a1). split; [exact IO|]. split; [rewrite fold_left_app; reflexivity|]. apply incl_app; assumption. }
  destruct HI as [->|(b0 & ix0 & a & IO & -> & Ia)]; [exact HC|].
  destruct (recon_run id content bs d (Some b0) ix0 HB Hid IO) as (b0' & E0 & HR'). injection E0 as <-. rewrite HT in HR'. cbn [fst snd] in HR'. rewrite HR' in HC. injection HC as <- <-.
  pose proof (opened_after_open d o b0 ix0 Hwf Hlen IO) as Op. assert (Wa : Forall wf_ins a) by (rewrite Forall_forall in *; auto).
  destruct (reopen bs id d b0 ix0 (fold_left put_ins a b0)) as (ix & HO2); try assumption; [lia|apply puts_opened; assumption|apply get_metadata_puts; assumption|].
  destruct (recon_run id content bs (Some (fold_left put_ins a b0)) (Some (fold_left put_ins a b0)) ix HB Hid HO2) as (b2 & E2 & ->). injection E2 as <-.
  rewrite HT. cbn [fst snd]. rewrite puts_over; [reflexivity|apply Op|exact Ia].
Qed.
(** an image with one leaf, of which everything behind that leaf cannot be read in a first run: nothing but the
    metadata record is stored, and the next run stores everything *)
Definition sick (content : list byte) : device := mkDev (zlen content, true) (fun n off => if 73728 <=? off then ([], Some EOther) else file_reader content n off).
Lemma sick_flaky content : flaky_dev content 4096 (sick content).
Proof. split; [left; reflexivity|]. intros off. cbn [sick dev_read]. destruct (73728 <=? off); [right; eauto|left; reflexivity]. Qed.
Lemma restart_image id leaf N : enough N -> zlen leaf = 4096 -> ~ foreign id leaf -> readable_leaf leaf -> num 96 4 leaf = 2 -> (forall i, In i (raw_items leaf) -> ~ reserved i) -> length id = 16%nat -> id <> repeat x00 16 ->
  let content := image_of 4096 [leaf] N in let m := [(metadataKey, newIndexMetadata (mkOptions false 4096 id (2^64 - 1) false))] in
  big_enough content 4096 /\ (forall is c, scanned id content 4096 0 is c -> forall i, In i is -> ~ reserved i) /\
  runs id content 4096 None (Some m) /\
  doScanFS true true no_faults (file_dev content) 4096 id (Some m) = (Some (fold_left put_ins (raw_items leaf) m), XOk).
Proof.
  intros HN HL HF HR HU HV Hlen Hid content m. assert (HFl : Forall (fun bl => zlen bl = 4096) [leaf]) by (constructor; [exact HL|constructor]).
  assert (HN1 : 0 <= N) by (clear -HN; unfold enough in HN; lia). assert (HP : 0 <= N / 4096) by (clear -HN1; apply Z.div_pos; lia).
  pose proof (image_of_big N [leaf] HN HFl ltac:(reflexivity)) as HB.
  pose proof (image_of_blocks 4096 N [leaf] ltac:(reflexivity) HN1 HFl) as HK.
  pose proof (image_of_block 4096 N [leaf] ltac:(reflexivity) HFl 0 leaf eq_refl) as B0.
  pose proof (image_of_end 4096 N [leaf] ltac:(reflexivity) HN1 HFl id) as HEnd. fold content in HB, HK, B0, HEnd. clearbody content.
  assert (HZ1 : zlen [leaf] = 1) by reflexivity. rewrite HZ1 in HK.
  assert (HS : scanned id content 4096 0 (raw_items leaf) true).
  { rewrite <- (app_nil_r (raw_items leaf)). rewrite <- B0 at 1. apply sc_leaf; [clear -HK HP; lia|rewrite B0; exact HF|rewrite B0; exact HR|exact HEnd]. }
  assert (HNR : forall is c, scanned id content 4096 0 is c -> forall i, In i is -> ~ reserved i) by (intros is c H; destruct (scanned_fun _ _ _ _ _ _ _ _ HS H) as [<- <-]; exact HV).
  split; [exact HB|]. split; [exact HNR|]. destruct (open_none 4096 id Hlen) as (ix & HO).
  assert (HRd : file_reader content 4096 69632 = (leaf, None)).
  { unfold file_reader. replace (69632 <? 0) with false by reflexivity. unfold image_block, sub in B0. replace (65536 + 4096 * (Z.of_nat 0 + 1)) with 69632 in B0 by lia. cbv zeta. rewrite B0, HL. reflexivity. }
  assert (HRun : runs id content 4096 None (Some m)).
  { destruct (C68_read_error id (sick content) 4096 (zlen content) None (Some m) ix [leaf] (raw_items leaf)) as (b0 & E0 & HE).
    - destruct HB as (A & B & C). split; [reflexivity|]. split; [lia|split; lia].
    - lia.
    - exact Hid.
    - exact HO.
    - destruct HB as (A & B & C). replace (65536 + 4096) with 69632 by lia. apply db_block; [lia| |exact HL|].
      + cbn [sick dev_read]. replace (73728 <=? 69632) with false by lia. exact HRd.
      + eapply (db_err _ _ _ _ []); [lia|]. cbn [sick dev_read]. replace (73728 <=? 69632 + 4096) with true by lia. reflexivity.
    - rewrite <- (app_nil_r (raw_items leaf)). apply bi_leaf; [exact HF|exact HR|constructor].
    - injection E0 as <-. assert (HZ : zlen (raw_items leaf) = 2) by (unfold raw_items, zlen; rewrite map_length, seq_length, HU; reflexivity). rewrite HZ in HE. change (Z.to_nat (committed 2)) with 0%nat in HE. cbn [firstn fold_left] in HE.
      eapply runs_one; [apply runs_none|apply sick_flaky|exact HE]. }
  split; [exact HRun|]. apply (C79_run_again id content 4096 None); try assumption; [lia|discriminate|].
  destruct (recon_run id content 4096 None _ ix HB Hid HO) as (b0 & E0 & HE). injection E0 as <-. destruct (image_scanned id _ 4096 HB ltac:(lia)) as (is & c & HS' & HT).
  destruct (scanned_fun _ _ _ _ _ _ _ _ HS HS') as [<- <-]. rewrite HT in HE. exact HE.
Qed.
Example C79_ex : forall N, enough N -> let content := image_of 4096 [good_leaf] N in let m := [(metadataKey, newIndexMetadata (mkOptions false 4096 id0 (2^64 - 1) false))] in
  runs id0 content 4096 None (Some m) /\ doScanFS true true no_faults (file_dev content) 4096 id0 (Some m) = (Some (fold_left put_ins (raw_items good_leaf) m), XOk) /\ zlen (raw_items good_leaf) = 2.
Proof.
  intros N HN content m. destruct (restart_image id0 good_leaf N HN good_len good_notforeign good_readable good_num) as (_ & _ & A & B); [|exact id0_len|exact id0_nonzero|split; [exact A|split; [exact B|unfold zlen, raw_items; rewrite map_length, seq_length, good_num; reflexivity]]].
  intros i Hi (F & _). unfold raw_items in Hi. rewrite good_num in Hi. destruct Hi as [<-|[<-|[]]]; vm_compute in F; discriminate.
Qed.
Print Assumptions C79_run_again.
Print Assumptions C79_ex.

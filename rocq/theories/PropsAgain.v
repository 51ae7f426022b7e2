(** Running recover again on a destination that is complete. *)
From Verif Require Import Go Layout KeyFmt IoUtil Path Fs Recover SpecFs SpecContent SpecTree TreeProofs TreeRun TreeFull PropsTree PropsRecoverSafe PropsRecoverEx PropsTreeEx.
From Coq Require Import List ZArith Lia. Import ListNotations.
#[local] Open Scope Z_scope.

(** the file trees are the same *)
Definition same_tree (F F' : fs) : Prop := forall p, look F' p = look F p.
Lemma below_or P p : at_or_below P p \/ ~ at_or_below P p.
Proof.
  unfold at_or_below. revert p. induction P as [|c P IH]; intros p; [left; exists p; reflexivity|].
  destruct p as [|d p]; [right; intros (r & H); discriminate|]. destruct (list_eq_dec Byte.byte_eq_dec c d) as [->|N]; [|right; intros (r & H); injection H as -> _; congruence].
  destruct (IH p) as [(r & ->)|G]; [left; exists r; reflexivity|right]. intros (r & H). apply G. exists r. injection H as ->. reflexivity.
Qed.
Lemma holds_part F P t : holds_tree F P t -> part_of_tree F P t.
Proof. intros H r nd Hr. rewrite H in Hr. exists nd. auto. Qed.
Lemma holds_repl c F P t : holds_tree F P t -> replaceable c F P t.
Proof. intros H. right. intros r nd Hr. rewrite H in Hr. exact Hr. Qed.

(** C73.  On a destination that holds the whole tree, recover without faults, with or
    without --clobber, succeeds without a warning and leaves every path of the file
    system as it was. *)
Theorem C73_again cfuel E dev D q clobber dest w P kids :
  no_faults E -> good_device D dev -> zlen D < 2^63 -> 2^64 < Z.of_nat cfuel ->
  volume_shows q D kids -> plain_dest E (w_fs w) dest P -> paths_short dest kids -> holds_tree (w_fs w) P (TDir kids) ->
  exists fuel0, forall fuel, (fuel0 <= fuel)%nat ->
  exists w' v evs, doRecoverFiles fuel cfuel E dev q clobber dest w = (w', Ret (true, v)) /\ same_tree (w_fs w) (w_fs w') /\
    w_log w' = evs ++ w_log w /\ (forall k s, ~ In (EvWarn k s) evs).
Proof.
  intros HE HG HDl Hcf HV HD HPS HH. destruct (C67_whole_tree cfuel E dev D q clobber dest w P kids HE HG HDl Hcf HV HD HPS (holds_part _ _ _ HH) (holds_repl _ _ _ _ HH)) as (f0 & H).
  exists f0. intros fuel Hf. destruct (H fuel Hf) as (w' & v & evs & H1 & H2 & H3 & H4). exists w', v, evs. split; [exact H1|]. split; [|exact H4].
  intros p. destruct (below_or P p) as [(r & ->)|N]; [rewrite H2, HH; reflexivity|exact (H3 p N)].
Qed.
Print Assumptions C73_again.
(** Without --clobber this does not need a working device, nor that the run ends: it may
    be killed anywhere, writes and opens may fail. *)
Theorem C73_any_run fuel cfuel E dev D q dest w w' out P kids :
  (forall n k m, k = OStat \/ k = OLstat \/ k = OMkdir -> e_faults E n k <> FErr m) ->
  volume_shows q D kids -> plain_dest E (w_fs w) dest P -> paths_short dest kids -> holds_tree (w_fs w) P (TDir kids) ->
  doRecoverFiles fuel cfuel E dev q false dest w = (w', out) -> same_tree (w_fs w) (w_fs w').
Proof.
  intros HF HV HD HPS HH H. destruct (C67_any_run fuel cfuel E dev D q false dest w w' out P kids HF HV HD HPS (holds_part _ _ _ HH) H) as [H1 H2].
  pose proof (C47_no_clobber fuel cfuel E dev q dest w w' out (fun n k => HF n OStat k (or_introl eq_refl)) H) as H3.
  intros p. destruct (look (w_fs w) p) as [nd|] eqn:EL; [exact (H3 p nd EL)|]. destruct (below_or P p) as [(r & ->)|N]; [|rewrite H2 by exact N; exact EL].
  destruct (look (w_fs w') (P ++ r)) as [nd|] eqn:EL'; [|reflexivity]. destruct (H1 r nd EL') as (nd' & HT & _). rewrite HH in EL. congruence.
Qed.
Print Assumptions C73_any_run.
(** Twice in a row: whatever the first run found (nothing, or parts of the tree it may complete),
    the second run changes nothing. *)
Theorem C73_twice cfuel E dev D q clobber1 clobber2 dest w P kids :
  no_faults E -> good_device D dev -> zlen D < 2^63 -> 2^64 < Z.of_nat cfuel ->
  volume_shows q D kids -> plain_dest E (w_fs w) dest P -> paths_short dest kids ->
  part_of_tree (w_fs w) P (TDir kids) -> replaceable clobber1 (w_fs w) P (TDir kids) ->
  exists fuel1, forall f1, (fuel1 <= f1)%nat ->
  exists w1 v1, doRecoverFiles f1 cfuel E dev q clobber1 dest w = (w1, Ret (true, v1)) /\ holds_tree (w_fs w1) P (TDir kids) /\
    exists fuel2, forall f2, (fuel2 <= f2)%nat ->
    exists w2 v2, doRecoverFiles f2 cfuel E dev q clobber2 dest w1 = (w2, Ret (true, v2)) /\ same_tree (w_fs w1) (w_fs w2).
Proof.
  intros HE HG HDl Hcf HV HD HPS HF HR. destruct (C67_whole_tree cfuel E dev D q clobber1 dest w P kids HE HG HDl Hcf HV HD HPS HF HR) as (f0 & H).
  exists f0. intros f1 Hf1. destruct (H f1 Hf1) as (w1 & v1 & evs & R1 & T1 & O1 & _). exists w1, v1. split; [exact R1|]. split; [exact T1|].
  destruct (C51_rerun f1 cfuel E dev clobber1 clobber2 cfuel E dev D q dest w w1 _ P kids eq_refl ltac:(intros n k m _; rewrite HE; discriminate) HE HG HDl Hcf HV HD HPS HF R1 (holds_repl _ _ _ _ T1)) as (f2 & G).
  exists f2. intros f3 Hf3. destruct (G f3 Hf3) as (w2 & v2 & R2 & T2 & O2). exists w2, v2. split; [exact R2|].
  intros p. destruct (below_or P p) as [(r & ->)|N]; [rewrite T1, T2; reflexivity|rewrite O1, O2 by exact N; reflexivity].
Qed.
Print Assumptions C73_twice.
(** the volume of PropsTreeEx, recovered into /d, then again without --clobber *)
Example C73_ex cfuel : 2^64 < Z.of_nat cfuel -> exists f1 f2 w1 v1 w2 v2,
  doRecoverFiles f1 cfuel E0 (file_reader ex_dev) qv false (abs1 s_d) (w0 F_d) = (w1, Ret (true, v1)) /\ holds_tree (w_fs w1) [s_d] (TDir vol_tree) /\
  doRecoverFiles f2 cfuel E0 (file_reader ex_dev) qv false (abs1 s_d) w1 = (w2, Ret (true, v2)) /\ same_tree (w_fs w1) (w_fs w2).
Proof.
  intros HF. destruct (C73_twice cfuel E0 (file_reader ex_dev) ex_dev qv false false (abs1 s_d) (w0 F_d) [s_d] vol_tree ltac:(intros n k; reflexivity) (file_reader_good ex_dev) ltac:(vm_compute; reflexivity) HF vol_shows vol_dest vol_short (proj1 vol_empty) (proj2 vol_empty)) as (f1 & H).
  destruct (H f1 (le_n f1)) as (w1 & v1 & R1 & T1 & f2 & G). destruct (G f2 (le_n f2)) as (w2 & v2 & R2 & S). exists f1, f2, w1, v1, w2, v2. auto.
Qed.
(** killed after the first file was complete and before the second was opened: the next run without --clobber completes the tree *)
Definition E_stop : env := mkEnv [] (fun n k => match k with OOpen => if Nat.eqb n 10 then FCrash 0 else FNone | _ => FNone end).
Definition vol_stopped := doRecoverFiles 10 100 E_stop (file_reader ex_dev) qv false (abs1 s_d) (w0 F_d).
Example C51_resume_ex cfuel : 2^64 < Z.of_nat cfuel -> snd vol_stopped = OCrash /\ exists fuel w' v,
  doRecoverFiles fuel cfuel E0 (file_reader ex_dev) qv false (abs1 s_d) (fst vol_stopped) = (w', Ret (true, v)) /\
  holds_tree (w_fs w') [s_d] (TDir vol_tree) /\ (forall p, ~ at_or_below [s_d] p -> look (w_fs w') p = look F_d p).
Proof.
  intros HF. split; [vm_compute; reflexivity|].
  assert (HK : doRecoverFiles 10 100 E_stop (file_reader ex_dev) qv false (abs1 s_d) (w0 F_d) = (fst vol_stopped, OCrash)) by (unfold vol_stopped; vm_compute; reflexivity).
  assert (HC : forall n k m, k = OStat \/ k = OLstat \/ k = OMkdir -> e_faults E_stop n k <> FErr m) by (intros n k m [->|[->| ->]]; discriminate).
  assert (HR : replaceable false (w_fs (fst vol_stopped)) [s_d] (TDir vol_tree)).
  { right. intros r nd Hr. assert (HI : In ([s_d] ++ r) (map fst (w_fs (fst vol_stopped)))) by (apply look_In; [discriminate|congruence]). revert HI. vm_compute in Hr |- *.
    intros [HI|[HI|[HI|[HI|[]]]]]; try (injection HI as <-; vm_compute in Hr; rewrite <- Hr; reflexivity); discriminate. }
  destruct (C51_rerun 10 100 E_stop (file_reader ex_dev) false false cfuel E0 (file_reader ex_dev) ex_dev qv (abs1 s_d) (w0 F_d) (fst vol_stopped) OCrash [s_d] vol_tree eq_refl HC ltac:(intros n k; reflexivity) (file_reader_good ex_dev) ltac:(vm_compute; reflexivity) HF vol_shows vol_dest vol_short (proj1 vol_empty) HK HR) as (f0 & H).
  destruct (H f0 (le_n f0)) as (w' & v & H'). exists f0, w', v. exact H'.
Qed.

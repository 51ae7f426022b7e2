(** C45: which paths the recover command touches. *)
From Verif Require Import Go GoProofs Layout KeyFmt Bolt Store Fs Recover RecoverProofs SpecFs PathProofs.
From Coq Require Import ZifyBool ZifyNat ZifyN.
Ltac Zify.zify_post_hook ::= Z.div_mod_to_equations.

(** a path recover may change: the destination, something below it, or (mkdir
    only, like mkdir -p) an ancestor of the destination *)
Definition may_touch (dest : list byte) (k : opk) (p : list byte) : Prop :=
  inside dest p \/ (k = OMkdir /\ (leading p dest \/ leading p (Clean dest))).
Definition event_inside (dest : list byte) (e : event) : Prop :=
  match e with
  | EvOp k p _ | EvDead k p => mutates k = true -> may_touch dest k p
  | _ => True
  end.
Definition logs (P : event -> Prop) (w w' : world) : Prop := exists evs, w_log w' = evs ++ w_log w /\ Forall P evs.
Lemma logs_refl P w : logs P w w.
Proof. exists []. auto. Qed.
Lemma logs_trans P a b c : logs P a b -> logs P b c -> logs P a c.
Proof. intros (e1 & E1 & F1) (e2 & E2 & F2). exists (e2 ++ e1). rewrite E2, E1, app_assoc. split; [reflexivity|apply Forall_app; auto]. Qed.
Lemma logs_syscall (P : event -> Prop) E k s A (eff : fs -> fs * option A) part : (forall ok, P (EvOp k s ok)) -> P (EvDead k s) -> keeps (logs P) (syscall E k s eff part).
Proof.
  intros H1 H2 w w' o H. unfold syscall in H. destruct (e_faults E (w_ops w) k).
  - destruct (eff (w_fs w)) as [F r]. injection H as <- <-. exists [EvOp k s (is_some r)]. split; [reflexivity|auto].
  - injection H as <- <-. exists [EvOp k s false]. split; [reflexivity|auto].
  - injection H as <- <-. exists [EvDead k s]. split; [reflexivity|auto].
Qed.
Lemma logs_emit (P : event -> Prop) e : P e -> keeps (logs P) (emit e).
Proof. intros H w w' o HE. unfold emit in HE. injection HE as <- <-. exists [e]. split; [reflexivity|auto]. Qed.
Lemma logs_read (P : event -> Prop) dev n o : (forall off n got err, P (EvRead off n got err)) -> keeps (logs P) (devRead dev n o).
Proof. intros H w w' r HE. unfold devRead in HE. destruct (dev n o) as [d e]. injection HE as <- <-. exists [EvRead o n (zlen d) e]. split; [reflexivity|auto]. Qed.

(** C45.  Whatever the index queries answer (any names, any directory graph), the
    device, the faults, the crash points and the initial file tree: every path
    that recover creates, writes, truncates, removes or links is the destination
    or spelled destination/c1/.../cn with plain names, except that mkdir is also
    called for ancestors of the destination. *)
Theorem C45_paths_inside fuel cfuel E dev q clobber dest w w' o :
  doRecoverFiles fuel cfuel E dev q clobber dest w = (w', o) ->
  exists evs, w_log w' = evs ++ w_log w /\ Forall (event_inside dest) evs.
Proof.
  set (R := logs (event_inside dest)). intros H.
  assert (Rr : forall w, R w w) by (intros; apply logs_refl). assert (Rt : forall a b c, R a b -> R b c -> R a c) by (intros a b c; apply logs_trans).
  assert (Hsys : forall k s A (eff : fs -> fs * option A) part, (mutates k = true -> may_touch dest k s) -> keeps R (syscall E k s eff part)).
  { intros k s A eff part Hk. apply logs_syscall; [intros ok|]; exact Hk. }
  assert (Hread : forall n off, keeps R (devRead dev n off)) by (intros; apply logs_read; intros; exact Logic.I).
  assert (Hin : forall k s, inside dest s -> mutates k = true -> may_touch dest k s) by (intros k s Hs _; left; exact Hs).
  refine (keeps_recover R Rr Rt cfuel E dev q clobber (inside dest) (fun _ => True) _ _ _ _ _ _ fuel dest _ w w' o H).
  - intros e He. apply logs_emit. destruct e; try contradiction; exact Logic.I.
  - intros s Hs. apply (keeps_mkall R Rr Rt E (may_touch dest OMkdir)).
    + intros s1 p [H1|(_ & [H1|H1])] HP.
      * destruct (parent_inside dest s1 p H1 HP) as [A|[A|A]]; [left; exact A|right; auto|right; auto].
      * destruct (parent_leading _ _ HP) as (_ & HL & _). right. split; [reflexivity|]. left. exact (leading_trans _ _ _ HL H1).
      * destruct (parent_leading _ _ HP) as (_ & HL & _). right. split; [reflexivity|]. right. exact (leading_trans _ _ _ HL H1).
    + intros s1 _. apply Hsys. discriminate.
    + intros s1 _. apply Hsys. discriminate.
    + intros s1 H1. apply Hsys. intros _. exact H1.
    + left. exact Hs.
  - intros owner i s Hs. apply keeps_file; [exact Rr|exact Rt|exact Hread| | | |]; intros; apply Hsys; auto.
  - intros di owner dst i s _ _ Hs. apply keeps_symlink; [exact Rr|exact Rt|exact Hread| | |]; intros; apply Hsys; auto.
  - intros s n Hs Hn. apply Join_inside; assumption.
  - intros oo d. apply Forall_forall. intros; exact Logic.I.
  - left. reflexivity.
Qed.
Print Assumptions C45_paths_inside.

(** names of items that would lead out of the directory are never used *)
Theorem C45_bad_names_skipped owner dest di n : DirItem_Name di = Ok n -> n = [dot] \/ n = [dot; dot] \/ In slash n -> classify owner dest di = Ok ASkip.
Proof.
  intros H Hn. unfold classify. rewrite H. cbn [rbind]. replace (skip_name n) with true; [reflexivity|]. symmetry. unfold skip_name.
  destruct Hn as [->|[->|Hn]]; [reflexivity|reflexivity|]. replace (has_byte slash n) with true; [rewrite orb_true_r; reflexivity|].
  symmetry. apply existsb_exists. exists slash. split; [exact Hn|apply beqb_eq; reflexivity].
Qed.
Print Assumptions C45_bad_names_skipped.

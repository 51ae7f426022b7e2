(** C104: what --clobber may destroy where a symbolic link is to be recovered. *)
From Verif Require Import Go GoProofs Layout LayoutProofs SpecLayout StructProofs PropsLayout KeyFmt KeyProofs Bolt Store Fs Recover RecoverProofs SpecFs SpecContent PathProofs PropsRecoverPaths FsProofs PropsRecoverSafe PropsRecoverDfs PropsRecoverFile PropsRecoverLink MkIndex PropsRecoverEx.
From Coq Require Import List ZifyBool ZifyNat ZifyN.
Import ListNotations.

(** ** the entries of a directory *)
Lemma is_child_spec p : forall q, is_child p q = true <-> exists c, q = p ++ [c].
Proof.
  induction p as [|c p IH]; intros q.
  - cbn. destruct q as [|d [|e q]]; split; intros H; try discriminate; try (destruct H as (x & H); discriminate); [exists d; reflexivity|reflexivity].
  - cbn [is_child]. destruct q as [|d q]; [split; [discriminate|intros (x & H); discriminate]|]. destruct (list_eq_dec Byte.byte_eq_dec c d) as [->|N].
    + rewrite IH. split; intros (x & H); exists x; [rewrite H; reflexivity|cbn in H; injection H as H; exact H].
    + split; [discriminate|]. intros (x & H). cbn in H. injection H as H _. congruence.
Qed.
Lemma assoc_some F p n : assoc F p = Some n -> In (p, n) F.
Proof. induction F as [|[q m] F IH]; cbn; [discriminate|]. destruct (cpath_dec q p) as [->|N]; intros H; [injection H as ->; left; reflexivity|right; apply IH; exact H]. Qed.
Lemma assoc_in F p n : In (p, n) F -> assoc F p <> None.
Proof. induction F as [|[q m] F IH]; cbn; [intros []|]. intros [H|H]; destruct (cpath_dec q p) as [E|N]; try discriminate; [injection H as H1 H2; congruence|apply IH; exact H]. Qed.
Lemma look_child F p c : look F (p ++ [c]) = assoc F (p ++ [c]).
Proof. destruct p; reflexivity. Qed.
Lemma has_child_spec F p : has_child F p = true <-> exists c n, look F (p ++ [c]) = Some n.
Proof.
  unfold has_child. rewrite existsb_exists. split.
  - intros ([q n] & HI & HC). apply is_child_spec in HC as (c & HC). cbn [fst] in HC. subst q. exists c. rewrite look_child. destruct (assoc F (p ++ [c])) as [m|] eqn:EA; [exists m; reflexivity|]. exfalso. exact (assoc_in _ _ _ HI EA).
  - intros (c & n & H). rewrite look_child in H. apply assoc_some in H. exists (p ++ [c], n). split; [exact H|]. apply is_child_spec. exists c. reflexivity.
Qed.

(** ** everything after the old entry is gone *)
Definition link_rest (E : env) (dev : readerAt) (q : queries) (owner inode : Z) (path : list byte) : M bool :=
  e <~ lift (q_extent0 q owner inode) ;;
  match e with
  | None => ret false
  | Some e => t <~ link_target dev q e ;; match t with None => ret false | Some t => r <~ Symlink E t path ;; ret (is_some r) end
  end.
(** ... creates at most one link, under the name [path] denotes, where nothing was *)
Definition adds_link (E : env) (path : list byte) (F F' : fs) : Prop :=
  F' = F \/ exists p t, resolve F (e_cwd E) false path = Some p /\ look F p = None /\ p <> [] /\ F' = put_node F p (NLink t).
Lemma link_rest_adds E dev q owner inode path w w' o : link_rest E dev q owner inode path w = (w', o) -> adds_link E path (w_fs w) (w_fs w').
Proof.
  unfold link_rest. intros H. unfold bind at 1, lift at 1 in H. destruct (q_extent0 q owner inode) as [[e|]| |]; try (injection H as <- _; left; reflexivity).
  unfold bind at 1 in H. destruct (link_target dev q e w) as [w1 o1] eqn:ET.
  assert (HF : w_fs w1 = w_fs w).
  { assert (HK : keeps (fun a b => w_fs b = w_fs a) (link_target dev q e)).
    { apply keeps_target; [reflexivity|intros a b c H1 H2; congruence|]. intros n off a b o2 H2. unfold devRead in H2. destruct (dev n off). injection H2 as <- _. reflexivity. }
    exact (HK _ _ _ ET). }
  destruct o1 as [[t|]| | |]; try (injection H as <- _; left; exact HF). unfold bind in H. rewrite <- HF.
  assert (HS : adds_link E path (w_fs w1) (w_fs (fst (Symlink E t path w1)))).
  { unfold Symlink, syscall. destruct (e_faults E (w_ops w1) OSymlink); [|left; reflexivity|left; reflexivity]. unfold sys_symlink. destruct (path_arg t); [|left; reflexivity].
    destruct (resolve (w_fs w1) (e_cwd E) false path) as [p|] eqn:ER; [|left; reflexivity]. destruct (look (w_fs w1) p) eqn:EL; [left; reflexivity|]. right. exists p, t. repeat split; auto. apply (look_missing (w_fs w1)). rewrite EL. discriminate. }
  destruct (Symlink E t path w1) as [w2 o2]. cbn [fst] in HS. destruct o2 as [r| | |]; injection H as <- _; exact HS.
Qed.
(** os.Remove: nothing, or the entry [path] denotes -- a directory only when empty *)
Definition may_remove (E : env) (path : list byte) (F F' : fs) : Prop :=
  F' = F \/ exists p, resolve F (e_cwd E) false path = Some p /\ p <> [] /\ look F p <> None /\ (look F p = Some NDir -> forall c, look F (p ++ [c]) = None) /\ F' = del F p.
Lemma remove_may E s w w' o : Remove E s w = (w', o) -> may_remove E s (w_fs w) (w_fs w').
Proof.
  intros H. unfold Remove, syscall in H. destruct (e_faults E (w_ops w) ORemove); [|injection H as <- _; left; reflexivity|injection H as <- _; left; reflexivity]. unfold sys_remove in H.
  destruct (resolve (w_fs w) (e_cwd E) false s) as [p|] eqn:ER; [|injection H as <- _; left; reflexivity]. destruct p as [|c p]; [injection H as <- _; left; reflexivity|].
  destruct (look (w_fs w) (c :: p)) as [[x| |x]|] eqn:EL; [| | |injection H as <- _; left; reflexivity];
    [|destruct (has_child (w_fs w) (c :: p)) eqn:EC; [injection H as <- _; left; reflexivity|]|]; injection H as <- _; right; exists (c :: p); repeat split; try discriminate; try congruence; auto.
  intros _ d. destruct (look (w_fs w) ((c :: p) ++ [d])) as [n|] eqn:E'; [|reflexivity]. assert (HT : has_child (w_fs w) (c :: p) = true) by (apply has_child_spec; exists d, n; exact E'). congruence.
Qed.
(** the two steps of every run *)
Lemma link_steps E dev q clobber owner inode path w w' o : recoverSymlink E dev q clobber owner inode path w = (w', o) ->
  exists F, may_remove E path (w_fs w) F /\ adds_link E path F (w_fs w').
Proof.
  unfold recoverSymlink. intros H. unfold bind at 1 in H. destruct (Lstat E path w) as [w1 o1] eqn:ES. assert (HF : w_fs w1 = w_fs w).
  { unfold Lstat, syscall in ES. destruct (e_faults E (w_ops w) OLstat); [unfold sys_stat in ES| |]; injection ES as <- _; reflexivity. }
  destruct o1 as [k| | |]; try (injection H as <- _; exists (w_fs w); split; left; [reflexivity|exact HF]).
  destruct (is_some k && negb clobber); [injection H as <- _; exists (w_fs w); split; left; [reflexivity|exact HF]|].
  change (bind (if is_some k then Remove E path else ret None) (fun _ => link_rest E dev q owner inode path) w1 = (w', o)) in H. unfold bind in H.
  destruct ((if is_some k then Remove E path else ret None) w1) as [w2 o2] eqn:ER.
  assert (HR : may_remove E path (w_fs w) (w_fs w2)). { rewrite <- HF. destruct (is_some k); [exact (remove_may _ _ _ _ _ ER)|injection ER as <- _; left; reflexivity]. }
  exists (w_fs w2). split; [exact HR|]. destruct o2 as [r| | |]; try (injection H as <- _; left; reflexivity). exact (link_rest_adds _ _ _ _ _ _ _ _ _ H).
Qed.

Lemma symlink_over E dev q owner inode path w w1 k : Lstat E path w = (w1, Ret (Some k)) ->
  recoverSymlink E dev q true owner inode path w = bind (Remove E path) (fun _ => link_rest E dev q owner inode path) w1.
Proof. intros H. unfold recoverSymlink. unfold bind at 1. rewrite H. reflexivity. Qed.

(** C104.  Whatever fails, wherever the process is killed, with or without --clobber:
    recovering a symbolic link changes no entry but the one its path denotes ... *)
Theorem C104_nothing_else_partial E dev q clobber owner inode path w w' o p :
  recoverSymlink E dev q clobber owner inode path w = (w', o) -> resolve (w_fs w) (e_cwd E) false path <> Some p -> look (w_fs w') p = look (w_fs w) p.
Proof.
  intros H Hn. destruct (link_steps _ _ _ _ _ _ _ _ _ _ H) as (F & HR & HA). destruct HR as [->|(p0 & Hp0 & Hr0 & _ & _ & ->)].
  - destruct HA as [->|(p1 & t & Hp1 & _ & Hr1 & ->)]; [reflexivity|]. apply look_put_other; [congruence|exact Hr1].
  - assert (HD : look (del (w_fs w) p0) p = look (w_fs w) p) by (rewrite look_del by exact Hr0; destruct (cpath_dec p0 p); [congruence|reflexivity]).
    destruct HA as [->|(p1 & t & Hp1 & _ & Hr1 & ->)]; [exact HD|]. assert (p1 = p0).
    { unfold resolve in Hp1, Hp0. destruct (path_arg path); [|discriminate]. destruct (walk_del _ _ _ Hr0 _ _ _ _ Hp1) as [HX|HX]; [exact HX|congruence]. }
    subst p1. rewrite look_put_other; [exact HD|congruence|exact Hr1].
Qed.
Print Assumptions C104_nothing_else_partial.
(** ... and a directory that has an entry stays a directory. *)
Theorem C104_full_directory_partial E dev q clobber owner inode path w w' o p c n :
  recoverSymlink E dev q clobber owner inode path w = (w', o) -> look (w_fs w) p = Some NDir -> look (w_fs w) (p ++ [c]) = Some n -> look (w_fs w') p = Some NDir.
Proof.
  intros H Hp Hc. destruct (link_steps _ _ _ _ _ _ _ _ _ _ H) as (F & HR & HA). assert (HF : look F p = Some NDir).
  { destruct HR as [->|(p0 & _ & Hr0 & _ & Hd & ->)]; [exact Hp|]. rewrite look_del by exact Hr0. destruct (cpath_dec p0 p) as [->|N]; [|exact Hp]. rewrite (Hd Hp c) in Hc. discriminate. }
  destruct HA as [->|(p1 & t & _ & HN & Hr1 & ->)]; [exact HF|]. rewrite look_put_other; [exact HF|congruence|exact Hr1].
Qed.
Print Assumptions C104_full_directory_partial.
(** With --clobber and no failure, whatever else the path denotes -- a file, a link, an
    empty directory, nothing -- gives way to the link. *)
Theorem C104_replaces_partial E dev D q owner inode path w p e t :
  no_faults E -> good_device D dev -> zlen D < 2^63 ->
  resolve (w_fs w) (e_cwd E) false path = Some p -> p <> [] -> (look (w_fs w) p = Some NDir -> forall c, look (w_fs w) (p ++ [c]) = None) -> resolve (del (w_fs w) p) (e_cwd E) false path = Some p ->
  q_extent0 q owner inode = Ok (Some e) -> is_target q D e t -> path_arg t = true ->
  exists w', recoverSymlink E dev q true owner inode path w = (w', Ret true) /\ look (w_fs w') p = Some (NLink t) /\ (forall p', p' <> p -> look (w_fs w') p' = look (w_fs w) p').
Proof.
  intros HE HD HDl Hp Hr Hemp Hres He Ht Hta. destruct (look (w_fs w) p) as [[x| |x]|] eqn:EL.
  1,3: apply (C52_recovers E dev D q true owner inode path w p e t HE HD HDl Hp He Ht Hta); right; split; [reflexivity|]; split; [exists x; auto|exact Hres].
  2: apply (C52_recovers E dev D q true owner inode path w p e t HE HD HDl Hp He Ht Hta); left; exact EL.
  (* the run is that over a file of the same name *)
  set (wf := mkWorld (put_node (w_fs w) p (NFile [])) (w_ops w) (w_log w)).
  assert (HL : look (w_fs wf) p = Some (NFile [])) by (apply look_put_same; exact Hr).
  assert (HSh : same_shape (del (w_fs w) p) (w_fs wf)).
  { intros p'. cbn [w_fs wf]. rewrite look_put, look_del by exact Hr. destruct (cpath_dec p p'); [right; split; exact Logic.I|left; reflexivity]. }
  assert (HRf : resolve (w_fs wf) (e_cwd E) false path = Some p) by (rewrite (resolve_shape _ _ _ _ _ HSh); exact Hres).
  assert (HDel : del (w_fs wf) p = del (w_fs w) p).
  { cbn [w_fs wf]. unfold put_node, del. cbn [filter fst]. destruct (cpath_dec p p) as [_|N]; [|congruence]. generalize (w_fs w). intros F. induction F as [|[q' m] F IH]; [reflexivity|]. cbn [filter fst].
    destruct (cpath_dec q' p) as [->|N] eqn:EC; [exact IH|]. cbn [filter fst]. rewrite EC, IH. reflexivity. }
  assert (HEq : recoverSymlink E dev q true owner inode path w = recoverSymlink E dev q true owner inode path wf).
  { assert (H1 : Lstat E path w = (mkWorld (w_fs w) (S (w_ops w)) (EvOp OLstat path true :: w_log w), Ret (Some KDir))) by (unfold Lstat, syscall; rewrite HE; unfold sys_stat; rewrite Hp, EL; reflexivity).
    assert (H2 : Lstat E path wf = (mkWorld (w_fs wf) (S (w_ops w)) (EvOp OLstat path true :: w_log w), Ret (Some KFile))) by (unfold Lstat, syscall; rewrite HE; unfold sys_stat; rewrite HRf, HL; reflexivity).
    assert (HC : has_child (w_fs w) p = false) by (destruct (has_child (w_fs w) p) eqn:EC; [|reflexivity]; apply has_child_spec in EC as (c & m & EC); rewrite (Hemp eq_refl c) in EC; discriminate).
    assert (H3 : forall k L, Remove E path (mkWorld (w_fs w) k L) = Remove E path (mkWorld (w_fs wf) k L)).
    { intros k L. unfold Remove, syscall. cbn [w_fs w_ops w_log]. rewrite HE. unfold sys_remove. fold (w_fs wf). rewrite Hp. change (put_node (w_fs w) p (NFile [])) with (w_fs wf). rewrite HRf. destruct p as [|c p]; [congruence|]. rewrite EL, HL, HC, HDel. reflexivity. }
rewrite (symlink_over _ _ _ _ _ _ _ _ _ H1), (symlink_over _ _ _ _ _ _ _ _ _ H2). unfold bind. rewrite H3. reflexivity. }
  rewrite HEq. destruct (C52_recovers E dev D q true owner inode path wf p e t HE HD HDl HRf He Ht Hta) as (w' & A1 & A2 & A3).
  { right. split; [reflexivity|]. split; [exists []; left; exact HL|]. rewrite HDel. exact Hres. }
  exists w'. split; [exact A1|]. split; [exact A2|]. intros p' Hp'. rewrite (A3 p' Hp'). apply look_put_other; assumption.
Qed.
Print Assumptions C104_replaces_partial.

(** The full claim -- a link that cannot be recovered leaves what was under its name -- is
    false: the old entry is removed before the target is looked up (recover.go:232-239). *)
Definition C104_full : Prop := forall E dev q owner inode path w w' p n,
  no_faults E -> recoverSymlink E dev q true owner inode path w = (w', Ret false) -> resolve (w_fs w) (e_cwd E) false path = Some p -> look (w_fs w) p = Some n -> look (w_fs w') p = Some n.
(** ... for every index without a target for the inode and every file or link in place *)
Theorem C104_lost E dev q owner inode path w p n :
  no_faults E -> resolve (w_fs w) (e_cwd E) false path = Some p -> look (w_fs w) p = Some n -> n <> NDir -> q_extent0 q owner inode = Ok None ->
  exists w', recoverSymlink E dev q true owner inode path w = (w', Ret false) /\ look (w_fs w') p = None.
Proof.
  intros HE Hp Hn Hd He. assert (Hr : p <> []) by (apply (look_missing (w_fs w)); rewrite Hn; congruence).
  unfold recoverSymlink. unfold bind at 1. unfold Lstat, syscall. rewrite HE. unfold sys_stat. rewrite Hp, Hn. cbn [option_map is_some andb negb]. unfold bind at 1. unfold Remove, syscall. cbn [w_fs w_ops w_log]. rewrite HE. unfold sys_remove. rewrite Hp.
  destruct p as [|c p]; [congruence|]. rewrite Hn. rewrite He. destruct n as [x| |x]; [|congruence|]; (eexists; split; [reflexivity|]); cbn [w_fs]; rewrite look_del by exact Hr; (destruct (cpath_dec (c :: p) (c :: p)); [reflexivity|congruence]).
Qed.
Print Assumptions C104_lost.
Theorem C104_refuted : ~ C104_full.
Proof.
  intros H. set (w := w0 [([s_l], NFile [x61])]).
  destruct (C104_lost E0 (file_reader ex_dev) q1 5 999 (abs1 s_l) w [s_l] (NFile [x61])) as (w' & H1 & H2); try (vm_compute; reflexivity); [discriminate|].
  specialize (H E0 (file_reader ex_dev) q1 5 999 (abs1 s_l) w w' [s_l] (NFile [x61]) (fun _ _ => eq_refl) H1 eq_refl eq_refl). congruence.
Qed.
Print Assumptions C104_refuted.

(** ** examples: /l is an empty directory; /l has an entry *)
Definition e_l : slice := sl (ser (fe_inline_fields {| fi_head := mkhead 3 0; fi_data := bz_s [97; 47; 103] |})).
Example C104_replaces_ex : exists w', recoverSymlink E0 (file_reader ex_dev) q1 true 5 259 (abs1 s_l) (w0 [([s_x; s_l], NDir); ([s_x], NDir); ([s_l], NDir)]) = (w', Ret true) /\
  look (w_fs w') [s_l] = Some (NLink (bz_s [97; 47; 103])) /\ look (w_fs w') [s_x; s_l] = Some NDir.
Proof.
  destruct (C104_replaces_partial E0 (file_reader ex_dev) ex_dev q1 5 259 (abs1 s_l) (w0 [([s_x; s_l], NDir); ([s_x], NDir); ([s_l], NDir)]) [s_l] e_l (bz_s [97; 47; 103])) as (w' & H1 & H2 & H3).
  - intros n k; reflexivity.
  - apply file_reader_good.
  - vm_compute; reflexivity.
  - vm_compute; reflexivity.
  - discriminate.
  - intros _ c. cbn. destruct (cpath_dec [s_x; s_l] [s_l; c]) as [H|_]; [discriminate H|]. reflexivity.
  - vm_compute; reflexivity.
  - vm_compute; reflexivity.
  - left. split; vm_compute; reflexivity.
  - vm_compute; reflexivity.
  - exists w'. split; [exact H1|]. split; [exact H2|]. rewrite H3 by discriminate. vm_compute. reflexivity.
Qed.
Example C104_full_ex : forall w' o, recoverSymlink E0 (file_reader ex_dev) q1 true 5 259 (abs1 s_l) (w0 [([s_l; s_x], NFile [x00]); ([s_l], NDir)]) = (w', o) ->
  o = Ret false /\ look (w_fs w') [s_l] = Some NDir /\ look (w_fs w') [s_l; s_x] = Some (NFile [x00]).
Proof.
  intros w' o H. split; [vm_compute in H; injection H as _ <-; reflexivity|]. split.
  - eapply (C104_full_directory_partial _ _ _ _ _ _ _ _ _ _ [s_l] s_x (NFile [x00]) H); vm_compute; reflexivity.
  - rewrite (C104_nothing_else_partial _ _ _ _ _ _ _ _ _ _ [s_l; s_x] H); vm_compute; [reflexivity|discriminate].
Qed.

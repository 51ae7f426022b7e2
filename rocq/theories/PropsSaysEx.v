(** C106 (continued): a run with all kinds of lines; what the lines do not tell. *)
From Verif Require Import Go GoProofs Layout LayoutProofs SpecLayout StructProofs PropsLayout KeyFmt KeyProofs Bolt Store StoreProofs SpecStore RangeProofs PropsStore PropsRange MkIndex.
From Verif Require Import PropsPath ToString Fs Recover RecoverProofs SpecFs SpecContent PathProofs PropsRecoverPaths FsProofs PropsRecoverSafe PropsRecoverDfs PropsRecoverFile PropsRecoverErr PropsRecoverLink PropsRecoverEx.
From Verif Require Import RecoverSays PropsText PropsReport PropsRecoverSays PropsSaysAll.
From Coq Require Import Strings.String.
From Coq Require Import List.
Import ListNotations.

Definition says_run (its : list item) (clobber : bool) (F : fs) := doRecoverFilesV 10 10 E0 (file_reader ex_dev) (ixq its) clobber (abs1 s_d) (w0 F, []).
(** the tree of PropsRecoverEx with a device node p, an entry "a/b", a second subvolume, and with the file /d/f there already *)
Definition says_items : list item :=
  dir_at 5 256 400 (mkdi 261 1 3 [x70]) :: dir_at 5 256 500 (mkdi 262 1 1 [x61; x2f; x62]) :: (1, mkKey 256 132 0, 7, itemv []) :: ex_items.
Example says_all : rev (snd (fst (says_run says_items false [([s_d; s_f], NFile [x78]); ([s_d], NDir)]))) =
  [SRoot 5; SFile (str "/d/a/g"%string) 2; SExists (str "/d/f"%string); SLink (str "/d/l"%string) (str "a/g"%string); SSpecial (str "/d/p"%string) 3; SSubvol 256 (str "/d/subvol_256"%string)].
Proof. vm_compute. reflexivity. Qed.
Example says_clobber : rev (snd (fst (says_run says_items true [([s_d; s_f], NFile [x78]); ([s_d], NDir)]))) =
  [SRoot 5; SFile (str "/d/a/g"%string) 2; SFile (str "/d/f"%string) 12; SLink (str "/d/l"%string) (str "a/g"%string); SSpecial (str "/d/p"%string) 3; SSubvol 256 (str "/d/subvol_256"%string)].
Proof. vm_compute. reflexivity. Qed.
Example says_text : transcript true (snd (fst (says_run ex_items false []))) = str "Recovering root directory tree from subvolume 5...
recovering file: /d/a/g (size: 2)
recovering file: /d/f (size: 12)
recovering symlink: /d/l -> a/g
"%string /\ transcript false (snd (fst (says_run ex_items false []))) = [].
Proof. vm_compute. split; reflexivity. Qed.
(** the hypotheses of C106_text_partial and C106_complete hold for them *)
Example says_plain : Forall plain_line (snd (fst (says_run says_items false [([s_d; s_f], NFile [x78]); ([s_d], NDir)]))).
Proof.
  rewrite <- (rev_involutive (snd (fst _))). apply Forall_rev. rewrite says_all.
  repeat (apply Forall_cons; [cbn [plain_line]; repeat split; try (vm_compute; congruence); intros H; vm_compute in H; repeat (destruct H as [H|H]; [discriminate H|]); exact H|]). constructor.
Qed.
Example says_ends : snd (says_run says_items false []) = Ret (true, [(256, 256); (5, 257); (5, 256)]) /\ In (EvList 5 256) (w_log (fst (fst (says_run says_items false [])))).
Proof. vm_compute. split; [reflexivity|]. repeat (first [left; reflexivity|right]). Qed.

(** ** What is not told *)
(** From the text alone one cannot tell which links were made: the full claim *)
Definition C106_full : Prop := forall fuel cfuel E dev q1 q2 clobber dest w w1 w2 s1 s2 o1 o2,
  doRecoverFilesV fuel cfuel E dev q1 clobber dest (w, []) = ((w1, s1), o1) -> doRecoverFilesV fuel cfuel E dev q2 clobber dest (w, []) = ((w2, s2), o2) ->
  transcript true s1 = transcript true s2 -> flat_map done_of (w_log w1) = flat_map done_of (w_log w2).
Definition arrow1 : list item := [dir_at 5 256 100 (mkdi 259 1 7 (str "a"%string)); inl 5 259 0 (str "b -> c"%string)].
Definition arrow2 : list item := [dir_at 5 256 100 (mkdi 259 1 7 (str "a -> b"%string)); inl 5 259 0 (str "c"%string)].
Theorem C106_refuted : ~ C106_full.
Proof.
  intros H. specialize (H 10%nat 10%nat E0 (file_reader ex_dev) (ixq arrow1) (ixq arrow2) false (abs1 s_d) (w0 [])).
  destruct (doRecoverFilesV 10 10 E0 (file_reader ex_dev) (ixq arrow1) false (abs1 s_d) (w0 [], [])) as [[w1 s1] o1] eqn:E1.
  destruct (doRecoverFilesV 10 10 E0 (file_reader ex_dev) (ixq arrow2) false (abs1 s_d) (w0 [], [])) as [[w2 s2] o2] eqn:E2.
  specialize (H w1 w2 s1 s2 o1 o2 eq_refl eq_refl).
  assert (A : (flat_map done_of (w_log w1), transcript true s1, flat_map done_of (w_log w2)) =
    ([(OSymlink, str "/d/a"%string)], transcript true s2, [(OSymlink, str "/d/a -> b"%string)])).
  { transitivity (flat_map done_of (w_log (fst (fst (says_run arrow1 false [])))), transcript true (snd (fst (says_run arrow1 false []))), flat_map done_of (w_log (fst (fst (says_run arrow2 false []))))).
    - unfold says_run. rewrite E1, E2. reflexivity.
    - transitivity ([(OSymlink, str "/d/a"%string)], transcript true (snd (fst (says_run arrow2 false []))), [(OSymlink, str "/d/a -> b"%string)]); [vm_compute; reflexivity|]. unfold says_run. rewrite E2. reflexivity. }
  injection A as A1 A2 A3. specialize (H A2). rewrite A1, A3 in H. discriminate H.
Qed.
(** Entries with a name recover refuses are left out without a line and without a warning: the full claim about entries *)
Definition C106_complete_full : Prop := forall fuel cfuel E dev q clobber dest w w' said a, (forall o d, ~ In (EvList o d) (w_log w)) ->
  doRecoverFilesV fuel cfuel E dev q clobber dest (w, []) = ((w', said), Ret a) ->
  forall o d k di, In (EvList o d) (w_log w') -> In (k, di) (st_items (q_dirItems q o d)) -> DirItem_Type di = Ok FtRegFile ->
  (exists p n, In (SFile p n) said) \/ (exists p, In (SExists p) said) \/ (exists p, In (EvWarn WFile p) (w_log w')).
Theorem C106_complete_refuted : ~ C106_complete_full.
Proof.
  intros H. specialize (H 10%nat 10%nat E0 (file_reader ex_dev) (ixq [dir_at 5 256 100 (mkdi 262 1 1 (str "a/b"%string))]) false (abs1 s_d) (w0 [])).
  destruct (doRecoverFilesV 10 10 E0 (file_reader ex_dev) (ixq [dir_at 5 256 100 (mkdi 262 1 1 (str "a/b"%string))]) false (abs1 s_d) (w0 [], [])) as [[w1 s1] o1] eqn:E1.
  assert (A : (w_log w1, s1, o1) = ([EvList 5 256; EvOp OStat (abs1 s_d) true; EvOp OMkdir (abs1 s_d) true; EvOp OStat (abs1 s_d) false], [SRoot 5], Ret (true, [(5, 256)]))).
  { transitivity (let '(w, s, o) := says_run [dir_at 5 256 100 (mkdi 262 1 1 (str "a/b"%string))] false [] in (w_log w, s, o)); [unfold says_run; rewrite E1; reflexivity|vm_compute; reflexivity]. }
  injection A as A1 A2 A3. subst s1 o1.
  destruct (st_items (q_dirItems (ixq [dir_at 5 256 100 (mkdi 262 1 1 (str "a/b"%string))]) 5 256)) as [|[k di] l] eqn:EI; [vm_compute in EI; discriminate EI|].
  destruct (H w1 [SRoot 5] _ ltac:(intros o d []) eq_refl 5 256 k di) as [(p & n & [X|[]])|[(p & [X|[]])|(p & X)]]; try discriminate X.
  - rewrite A1. left. reflexivity.
  - rewrite EI. left. reflexivity.
  - assert (G : match st_items (q_dirItems (ixq [dir_at 5 256 100 (mkdi 262 1 1 (str "a/b"%string))]) 5 256) with (_, di) :: _ => DirItem_Type di | [] => Panic end = Ok FtRegFile) by (vm_compute; reflexivity). rewrite EI in G. exact G.
  - rewrite A1 in X. destruct X as [X|[X|[X|[X|[]]]]]; discriminate X.
Qed.

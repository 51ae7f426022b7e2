(** C106: what recover tells with --verbose. *)
From Verif Require Import Go GoProofs Layout KeyFmt Bolt Store ToString Fs Recover RecoverProofs PropsRecoverPaths RecoverSays PropsText PropsReport PropsRecoverEx.
From Coq Require Import Strings.String.
From Coq Require Import List ZifyBool ZifyNat.
Import ListNotations.
Ltac Zify.zify_post_hook ::= Z.div_mod_to_equations.

(** ** The lines change nothing else *)
Definition same {A} (v : V A) (m : M A) : Prop := forall w s, (fst (fst (v (w, s))), snd (v (w, s))) = m w.
Lemma same_up {A} (m : M A) : same (up m) m.
Proof. intros w s. unfold up. destruct (m w); reflexivity. Qed.
Lemma same_ret {A} (a : A) : same (vret a) (ret a).
Proof. intros w s. reflexivity. Qed.
Lemma same_bind {A B} (v : V A) (m : M A) (f : A -> V B) (g : A -> M B) : same v m -> (forall a, same (f a) (g a)) -> same (vbind v f) (bind m g).
Proof.
  intros Hv Hf w s. unfold vbind, bind. specialize (Hv w s). destruct (v (w, s)) as [[w1 s1] o1]. cbn [fst snd] in Hv. rewrite <- Hv. destruct o1 as [a| | |]; try reflexivity. apply Hf.
Qed.
Lemma same_say {A} x (v : V A) (m : M A) : same v m -> same (vbind (say x) (fun _ => v)) m.
Proof. intros H w s. unfold vbind, say. apply H. Qed.
Lemma same_file cfuel E dev q clobber owner i p : same (recoverFileV cfuel E dev q clobber owner i p) (recoverFile cfuel E dev q clobber owner i p).
Proof.
  unfold recoverFileV, recoverFile. apply same_bind; [apply same_up|]. intros k. destruct (is_some k && negb clobber); [apply same_say, same_ret|].
  apply same_bind; [apply same_up|]. intros d. apply same_bind; [apply same_up|]. intros ii. apply same_bind; [apply same_up|]. intros [h|]; [|apply same_ret].
  apply same_say. exact (same_up (rest_of_file cfuel E dev q p ii h (q_extents q owner i))).
Qed.
Lemma same_link E dev q clobber owner i p : same (recoverSymlinkV E dev q clobber owner i p) (recoverSymlink E dev q clobber owner i p).
Proof.
  unfold recoverSymlinkV, recoverSymlink. apply same_bind; [apply same_up|]. intros k. destruct (is_some k && negb clobber); [apply same_say, same_ret|].
  apply same_bind; [apply same_up|]. intros _. apply same_bind; [apply same_up|]. intros [e|]; [|apply same_ret]. apply same_bind; [apply same_up|]. intros [t|]; [|apply same_ret].
  apply same_say. apply same_bind; [apply same_up|]. intros r. apply same_ret.
Qed.
Lemma special_ok owner dest di : classify owner dest di = Ok ASkip -> exists x, special dest di = Ok x.
Proof.
  unfold classify, special. destruct (DirItem_Name di) as [n| |]; cbn [rbind]; try discriminate. destruct (skip_name n); [intros _; eexists; reflexivity|].
  destruct (DirItem_IsDir di) as [d| |]; cbn [rbind]; try discriminate. destruct (if d then Ok true else DirItem_IsSubvolume di) as [[]| |]; cbn [rbind]; try discriminate.
  - destruct (DirItem_Location di); cbn [rbind]; try discriminate. destruct (DirItem_IsSubvolume di) as [[]| |]; cbn [rbind]; discriminate.
  - destruct (DirItem_Type di) as [t| |]; cbn [rbind]; try discriminate. intros _. eexists. reflexivity.
Qed.
Lemma same_items recV rec cfuel E dev q clobber owner dest : (forall o d p v, same (recV o d p v) (rec o d p v)) ->
  forall l v, same (items_loopV recV cfuel E dev q clobber owner dest l v) (items_loop rec cfuel E dev q clobber owner dest l v).
Proof.
  intros HR. induction l as [|[k di] l IH]; intros v; cbn [items_loopV items_loop]; [apply same_ret|].
  destruct (classify owner dest di) as [a| |] eqn:EC; [|intros w s; reflexivity|intros w s; reflexivity].
  assert (G : same (match a with
             | ASkip => s <+ up (lift (special dest di)) ;; _ <+ match s with Some (p, t) => say (SSpecial p t) | None => vret tt end ;; vret v
             | ADir o d p => r <+ recV o d p v ;; _ <+ up (if snd r : bool then ret tt else emit (EvWarn WDir p)) ;; vret (fst r)
             | AFile i p => ok <+ recoverFileV cfuel E dev q clobber owner i p ;; _ <+ up (if ok : bool then ret tt else emit (EvWarn WFile p)) ;; vret v
             | ALink i p => ok <+ recoverSymlinkV E dev q clobber owner i p ;; _ <+ up (if ok : bool then ret tt else emit (EvWarn WLink p)) ;; vret v
             end)
     (match a with
             | ASkip => ret v
             | ADir o d p => ' (v, ok) <~ rec o d p v ;; _ <~ (if ok : bool then ret tt else emit (EvWarn WDir p)) ;; ret v
             | AFile i p => ok <~ recoverFile cfuel E dev q clobber owner i p ;; _ <~ (if ok : bool then ret tt else emit (EvWarn WFile p)) ;; ret v
             | ALink i p => ok <~ recoverSymlink E dev q clobber owner i p ;; _ <~ (if ok : bool then ret tt else emit (EvWarn WLink p)) ;; ret v
             end)).
  { destruct a as [|o d p|i p|i p].
    - destruct (special_ok owner dest di EC) as (x & Ex). rewrite Ex. intros w s. destruct x as [[p t]|]; reflexivity.
    - apply same_bind; [apply HR|]. intros [v' ok]. cbn [fst snd]. apply same_bind; [apply same_up|intros _; apply same_ret].
    - apply same_bind; [apply same_file|]. intros ok. apply same_bind; [apply same_up|intros _; apply same_ret].
    - apply same_bind; [apply same_link|]. intros ok. apply same_bind; [apply same_up|intros _; apply same_ret]. }
  intros w s. exact (same_bind _ _ _ _ G IH w s).
Qed.
Lemma same_dir cfuel E dev q clobber fuel : forall owner dir dest v, same (recoverDirV fuel cfuel E dev q clobber owner dir dest v) (recoverDir fuel cfuel E dev q clobber owner dir dest v).
Proof.
  induction fuel as [|fuel IH]; intros owner dir dest v; cbn [recoverDirV recoverDir]; [intros w s; reflexivity|]. destruct (key_in (owner, dir) v); [apply same_ret|].
  apply same_bind; [apply same_up|]. intros [|]; cbn [negb]; [|apply same_ret]. apply same_bind; [apply same_up|]. intros _. apply same_bind; [apply same_up|]. intros _.
  apply same_bind; [apply same_items, IH|]. intros v'. apply same_ret.
Qed.
Lemma same_subvols fuel cfuel E dev q clobber dest : forall l fin v, same (subvols_loopV fuel cfuel E dev q clobber dest l fin v) (subvols_loop fuel cfuel E dev q clobber dest l fin v).
Proof.
  induction l as [|[k d] l IH]; intros fin v; cbn [subvols_loopV subvols_loop]; [apply same_bind; [apply same_up|intros _; apply same_ret]|].
  apply same_bind; [|intros v'; apply IH]. destruct (key_in _ v); [apply same_ret|]. apply same_say. apply same_bind; [apply same_dir|]. intros [v' ok]. cbn [fst snd].
  apply same_bind; [apply same_up|intros _; apply same_ret].
Qed.
(** With or without the lines the command does the same: world, log and result. *)
Theorem C106_same : forall fuel cfuel E dev q clobber dest w s,
  (fst (fst (doRecoverFilesV fuel cfuel E dev q clobber dest (w, s))), snd (doRecoverFilesV fuel cfuel E dev q clobber dest (w, s))) =
  doRecoverFiles fuel cfuel E dev q clobber dest w.
Proof.
  intros fuel cfuel E dev q clobber dest. change (same (doRecoverFilesV fuel cfuel E dev q clobber dest) (doRecoverFiles fuel cfuel E dev q clobber dest)).
  unfold doRecoverFilesV, doRecoverFiles. apply same_bind; [apply same_up|]. intros [|]; cbn [negb].
  - apply same_say. apply same_bind; [apply same_dir|]. intros [v ok]. cbn [fst snd]. apply same_bind; [apply same_up|]. intros _. apply same_bind; [apply same_subvols|]. intros v'. apply same_ret.
  - apply same_bind; [apply same_up|intros _; apply same_ret].
Qed.

(** ** What the lines say *)
(** a file that was opened for writing (and emptied), or an attempt to make a link *)
Definition told_of (s : said) : list (opk * list byte) :=
  match s with SFile p _ => [(OOpen, p)] | SLink p _ => [(OSymlink, p)] | _ => [] end.
Definition done_of (e : event) : list (opk * list byte) :=
  match e with
  | EvOp OOpen p true => [(OOpen, p)]
  | EvOp OSymlink p _ | EvDead OSymlink p => [(OSymlink, p)]
  | _ => []
  end.
(** when a line is true, given the log of the run *)
Definition true_line (q : queries) (clobber : bool) (dest : list byte) (log : list event) (s : said) : Prop :=
  match s with
  | SRoot o => o = 5
  | SSubvol o p => (exists k d, In (k, d) (st_items (q_subvolumes q)) /\ o = ObjectID (ik_Key k)) /\ p = Join dest (str "subvol_"%string ++ dec o)
  | SSpecial p t => exists o d dst k di name, In (EvList o d) log /\ In (k, di) (st_items (q_dirItems q o d)) /\ DirItem_Name di = Ok name /\ DirItem_Type di = Ok t /\ p = Join dst name /\
      ~ In t [1; 2; 7]
  | SExists p => clobber = false /\ In (EvOp OStat p true) log
  | SLinkExists p => clobber = false /\ In (EvOp OLstat p true) log
  | SFile p n => exists o i, (exists d, q_inode q o i = Ok (Some d) /\ InodeItem_Size d = Ok n) \/ (q_inode q o i = Ok None /\ n = 0)
  | SLink p t => exists o i e, q_extent0 q o i = Ok (Some e) /\ (FileExtentItem_IsInline e = Ok true -> FileExtentItem_Data e = Ok t)
  end.
Section Told.
  Variables (q : queries) (clobber : bool) (dest0 : list byte).
  Definition R (a b : world * list said) : Prop := exists evs l, w_log (fst b) = evs ++ w_log (fst a) /\ snd b = l ++ snd a /\
    flat_map told_of l = flat_map done_of evs /\ Forall (true_line q clobber dest0 (w_log (fst b))) l.
  Definition tells {A} (v : V A) : Prop := forall ws ws' o, v ws = (ws', o) -> R ws ws'.
  Lemma true_more log evs s : true_line q clobber dest0 log s -> true_line q clobber dest0 (evs ++ log) s.
  Proof.
    destruct s; cbn [true_line]; auto.
    - intros (o & d & dst & k & di & name & H & G). exists o, d, dst, k, di, name. split; [apply in_or_app; right; exact H|exact G].
    - intros [H1 H2]. split; [exact H1|apply in_or_app; right; exact H2].
    - intros [H1 H2]. split; [exact H1|apply in_or_app; right; exact H2].
  Qed.
  Lemma R_refl a : R a a.
  Proof. exists [], []. repeat split. constructor. Qed.
  Lemma R_trans a b c : R a b -> R b c -> R a c.
  Proof.
    intros (e1 & l1 & A1 & A2 & A3 & A4) (e2 & l2 & B1 & B2 & B3 & B4). exists (e2 ++ e1), (l2 ++ l1). rewrite B1, A1, B2, A2, !app_assoc. split; [reflexivity|]. split; [reflexivity|].
    rewrite !flat_map_app, A3, B3. split; [reflexivity|]. rewrite <- app_assoc, <- A1, <- B1. apply Forall_app. split; [exact B4|]. rewrite B1. eapply Forall_impl; [|exact A4]. intros s. apply true_more.
  Qed.
  Lemma tells_ret {A} (a : A) : tells (vret a).
  Proof. intros ws ws' o H. injection H as <- _. apply R_refl. Qed.
  Lemma tells_bind {A B} (v : V A) (f : A -> V B) : tells v -> (forall ws ws' a, v ws = (ws', Ret a) -> forall ws2 o, f a ws' = (ws2, o) -> R ws' ws2) -> tells (vbind v f).
  Proof.
    intros Hv Hf ws ws' o H. unfold vbind in H. destruct (v ws) as [ws1 o1] eqn:E. pose proof (Hv _ _ _ E) as R1.
    destruct o1 as [a| | |]; [exact (R_trans _ _ _ R1 (Hf _ _ _ E _ _ H))| | |]; injection H as <- _; exact R1.
  Qed.
  Lemma tells_then {A B} (v : V A) (f : A -> V B) : tells v -> (forall a, tells (f a)) -> tells (vbind v f).
  Proof. intros Hv Hf. apply tells_bind; [exact Hv|]. intros ws ws' a _ ws2 o. apply Hf. Qed.
  Definition quiet (e : event) : Prop := done_of e = [].
  Lemma tells_up {A} (m : M A) : keeps (logs quiet) m -> tells (up m).
  Proof.
    intros H [w s] ws' o E. unfold up in E. destruct (m w) as [w' o'] eqn:Em. injection E as <- _. destruct (H _ _ _ Em) as (evs & L & F). exists evs, []. cbn [fst snd app flat_map].
    split; [exact L|]. split; [reflexivity|]. split; [|constructor]. clear -F. induction F as [|e evs He F IH]; [reflexivity|]. cbn [flat_map]. rewrite He. exact IH.
  Qed.
  Lemma tells_say x : told_of x = [] -> (forall log, true_line q clobber dest0 log x) -> tells (say x).
  Proof. intros Hx Ht [w s] ws' o H. injection H as <- _. exists [], [x]. cbn [fst snd app flat_map]. rewrite Hx. repeat split. constructor; [apply Ht|constructor]. Qed.
  (** the steps that say nothing *)
  Lemma quiet_sys (E : env) k s A (eff : fs -> fs * option A) part : match k with OOpen | OSymlink => False | _ => True end -> keeps (logs quiet) (syscall E k s eff part).
  Proof. intros H. apply logs_syscall; [intros ok|]; unfold quiet; destruct k; try contradiction; reflexivity. Qed.
  Lemma quiet_refl w : logs quiet w w. Proof. apply logs_refl. Qed.
  Lemma quiet_trans a b c : logs quiet a b -> logs quiet b c -> logs quiet a c. Proof. apply logs_trans. Qed.
  Lemma quiet_mk (E : env) s : keeps (logs quiet) (MkdirAll E s).
  Proof.
    apply (keeps_mkall (logs quiet) quiet_refl quiet_trans E (fun _ => True)); auto; intros s' _; apply logs_syscall; [intros ok| |intros ok| |intros ok|]; reflexivity.
  Qed.
  Lemma quiet_read dev n o : keeps (logs quiet) (devRead dev n o).
  Proof. apply logs_read. reflexivity. Qed.
  Lemma quiet_rest cfuel (E : env) dev p ii h xs : keeps (logs quiet) (rest_of_file cfuel E dev q p ii h xs).
  Proof.
    apply (keeps_fill (logs quiet) quiet_refl quiet_trans cfuel E dev q p (quiet_read dev) h).
    - intros d o. apply logs_syscall; [intros ok|]; reflexivity.
    - intros s. apply logs_syscall; [intros ok|]; reflexivity.
  Qed.
  Lemma quiet_warn (ok : bool) k p : keeps (logs quiet) (if ok then ret tt else emit (EvWarn k p)).
  Proof. destruct ok; [apply keeps_ret; exact quiet_refl|apply logs_emit; reflexivity]. Qed.
  Lemma quiet_lift {A} (r : Res A) : keeps (logs quiet) (lift r).
  Proof. apply keeps_lift. exact quiet_refl. Qed.
  (** a call that answered is in the log *)
  Lemma stat_logged (E : env) k s A (eff : fs -> fs * option A) part w w' a : syscall E k s eff part w = (w', Ret (Some a)) -> In (EvOp k s true) (w_log w') /\ w_log w' = EvOp k s true :: w_log w.
  Proof.
    unfold syscall. destruct (e_faults E (w_ops w) k); try discriminate. destruct (eff (w_fs w)) as [F r]. intros H. injection H as <- ->. cbn [w_log is_some]. split; [left; reflexivity|reflexivity].
  Qed.
  Lemma up_ret {A} (m : M A) w s ws' a : up m (w, s) = (ws', Ret a) -> exists w', ws' = (w', s) /\ m w = (w', Ret a).
  Proof. unfold up. destruct (m w) as [w' o] eqn:E. intros H. injection H as <- ->. exists w'. auto. Qed.
  Lemma tells_file cfuel (E : env) dev owner i p : tells (recoverFileV cfuel E dev q clobber owner i p).
  Proof.
    unfold recoverFileV. apply tells_bind; [apply tells_up, logs_syscall; [intros ok|]; reflexivity|]. intros [w s] ws1 k HS. apply up_ret in HS as (w1 & -> & HS).
    destruct (is_some k && negb clobber) eqn:EK.
    - intros ws2 o H. apply andb_prop in EK as [EK EC]. destruct k as [k|]; [|discriminate]. destruct (stat_logged _ _ _ _ _ _ _ _ _ HS) as [HI _]. injection H as <- _.
      exists [], [SExists p]. cbn [fst snd app flat_map told_of]. repeat split. constructor; [|constructor]. cbn [true_line]. split; [destruct clobber; [discriminate|reflexivity]|exact HI].
    - clear HS. revert s w1. intros s w1. generalize (w1, s). apply tells_bind; [apply tells_up, quiet_lift|]. intros [wa sa] wsb d HD. apply up_ret in HD as (wb & -> & HD).
      assert (ED : q_inode q owner i = Ok d) by (unfold lift in HD; destruct (q_inode q owner i); try discriminate; injection HD as _ ->; reflexivity). clear HD.
      generalize (wb, sa). apply tells_bind; [apply tells_up, quiet_lift|]. intros [wc sc] wsd ii HI. apply up_ret in HI as (wd & -> & HI).
      assert (EI : match d with Some d => s <- InodeItem_Size d ;; Ok (Some s) | None => Ok None end = Ok ii) by (unfold lift in HI; destruct (match d with Some d => _ | None => _ end); try discriminate; injection HI as _ ->; reflexivity). clear HI.
      intros ws2 o H. unfold vbind at 1 in H. destruct (up (OpenFile E p) (wd, sc)) as [ws3 o3] eqn:EO. destruct o3 as [[h|]| | |].
      + apply up_ret in EO as (w3 & -> & EO). destruct (stat_logged _ _ _ _ _ _ _ _ _ EO) as [_ HL]. unfold vbind, say in H.
        apply (R_trans _ (w3, SFile p (match ii with Some size => size | None => 0 end) :: sc)); [|exact (tells_up _ (quiet_rest cfuel E dev p ii h _) _ _ _ H)].
        exists [EvOp OOpen p true], [SFile p (match ii with Some size => size | None => 0 end)]. cbn [fst snd app flat_map told_of done_of]. split; [exact HL|]. split; [reflexivity|]. split; [reflexivity|].
        constructor; [|constructor]. cbn [true_line]. exists owner, i. destruct d as [d|].
        * left. exists d. split; [exact ED|]. destruct (InodeItem_Size d) as [n| |]; try discriminate. cbn [rbind] in EI. injection EI as <-. reflexivity.
        * right. injection EI as <-. split; [exact ED|reflexivity].
      + apply up_ret in EO as (w3 & -> & EO). injection H as <- _. unfold OpenFile, syscall in EO. destruct (e_faults E (w_ops wd) OOpen) as [|k0|k0]; try discriminate.
        * destruct (sys_open (e_cwd E) p (w_fs wd)) as [F r]. injection EO as <- ->. exists [EvOp OOpen p false], []. repeat split. constructor.
        * injection EO as <-. exists [EvOp OOpen p false], []. repeat split. constructor.
      + injection H as <- _. unfold up, OpenFile, syscall in EO. destruct (e_faults E (w_ops wd) OOpen); try discriminate. destruct (sys_open (e_cwd E) p (w_fs wd)); discriminate.
      + injection H as <- _. unfold up, OpenFile, syscall in EO. destruct (e_faults E (w_ops wd) OOpen); [destruct (sys_open (e_cwd E) p (w_fs wd)); discriminate|discriminate|]. injection EO as <-.
        exists [EvDead OOpen p], []. repeat split. constructor.
      + injection H as <- _. unfold up, OpenFile, syscall in EO. destruct (e_faults E (w_ops wd) OOpen); [destruct (sys_open (e_cwd E) p (w_fs wd)); discriminate|discriminate|discriminate].
  Qed.
  Lemma target_inline dev e w w' t : link_target dev q e w = (w', Ret (Some t)) -> FileExtentItem_IsInline e = Ok true -> FileExtentItem_Data e = Ok t.
  Proof.
    intros H HI. unfold link_target, bind, lift in H. rewrite HI in H. destruct (FileExtentItem_Data e) as [d| |]; try discriminate. unfold ret in H. injection H as _ ->. reflexivity.
  Qed.
  Lemma tells_link (E : env) dev owner i p : tells (recoverSymlinkV E dev q clobber owner i p).
  Proof.
    unfold recoverSymlinkV. apply tells_bind; [apply tells_up, logs_syscall; [intros ok|]; reflexivity|]. intros [w s] ws1 k HS. apply up_ret in HS as (w1 & -> & HS).
    destruct (is_some k && negb clobber) eqn:EK.
    - intros ws2 o H. apply andb_prop in EK as [EK EC]. destruct k as [k|]; [|discriminate]. destruct (stat_logged _ _ _ _ _ _ _ _ _ HS) as [HI _]. injection H as <- _.
      exists [], [SLinkExists p]. cbn [fst snd app flat_map told_of]. repeat split. constructor; [|constructor]. cbn [true_line]. split; [destruct clobber; [discriminate|reflexivity]|exact HI].
    - clear HS. generalize (w1, s). apply tells_then; [apply tells_up; destruct (is_some k); [apply logs_syscall; [intros ok|]; reflexivity|apply keeps_ret; exact quiet_refl]|]. intros _.
      apply tells_bind; [apply tells_up, quiet_lift|]. intros [wa sa] wsb e HD. apply up_ret in HD as (wb & -> & HD).
      assert (EE : q_extent0 q owner i = Ok e) by (unfold lift in HD; destruct (q_extent0 q owner i); try discriminate; injection HD as _ ->; reflexivity). clear HD.
      destruct e as [e|]; [|apply tells_ret]. generalize (wb, sa).
      apply tells_bind; [apply tells_up; apply (keeps_target (logs quiet) quiet_refl quiet_trans dev q (quiet_read dev))|]. intros [wc sc] wsd t HT. apply up_ret in HT as (wd & -> & HT).
      destruct t as [t|]; [|apply tells_ret]. intros ws2 o H. unfold vbind, say in H. destruct (up (Symlink E t p) (wd, SLink p t :: sc)) as [ws3 o3] eqn:EO.
      assert (G : R (wd, sc) ws3).
      { unfold up, Symlink, syscall in EO. assert (HTL : forall log, true_line q clobber dest0 log (SLink p t)) by (intros log; cbn [true_line]; exists owner, i, e; split; [exact EE|intros HI; exact (target_inline dev e _ _ t HT HI)]).
        destruct (e_faults E (w_ops wd) OSymlink).
        - destruct (sys_symlink (e_cwd E) t p (w_fs wd)) as [F r]. injection EO as <- _. exists [EvOp OSymlink p (is_some r)], [SLink p t]. repeat split. constructor; [apply HTL|constructor].
        - injection EO as <- _. exists [EvOp OSymlink p false], [SLink p t]. repeat split. constructor; [apply HTL|constructor].
        - injection EO as <- _. exists [EvDead OSymlink p], [SLink p t]. repeat split. constructor; [apply HTL|constructor]. }
      destruct o3; injection H as <- _; exact G.
  Qed.
  Lemma special_facts owner dest di p t : classify owner dest di = Ok ASkip -> special dest di = Ok (Some (p, t)) ->
    exists name, DirItem_Name di = Ok name /\ DirItem_Type di = Ok t /\ p = Join dest name /\ ~ In t [1; 2; 7].
  Proof.
    unfold classify, special, DirItem_IsDir. destruct (DirItem_Name di) as [n| |]; cbn [rbind]; try discriminate. destruct (skip_name n); [discriminate|].
    destruct (DirItem_Type di) as [ty| |]; cbn [rbind]; try discriminate. intros HC HS. injection HS as <- <-. exists n. split; [reflexivity|]. split; [reflexivity|]. split; [reflexivity|].
    destruct (ty =? FtDir) eqn:E2.
    - exfalso. destruct (DirItem_Location di); cbn [rbind] in HC; try discriminate. destruct (DirItem_IsSubvolume di) as [[]| |]; cbn [rbind] in HC; discriminate.
    - destruct (DirItem_IsSubvolume di) as [[]| |]; cbn [rbind] in HC; try discriminate.
      + exfalso. destruct (DirItem_Location di); cbn [rbind] in HC; discriminate.
      + destruct (ty =? FtRegFile) eqn:E1; [exfalso; destruct (DirItem_Location di); cbn [rbind] in HC; discriminate|].
        destruct (ty =? FtSymlink) eqn:E7; [exfalso; destruct (DirItem_Location di); cbn [rbind] in HC; discriminate|].
        unfold FtDir, FtRegFile, FtSymlink in *. intros [H|[H|[H|[]]]]; subst ty; discriminate.
  Qed.
  Variables (cfuel : nat) (E : env) (dev : readerAt).
  Lemma tells_items recV owner dir dest : (forall o d p v, tells (recV o d p v)) ->
    forall l v, incl l (st_items (q_dirItems q owner dir)) -> forall ws ws' o, In (EvList owner dir) (w_log (fst ws)) ->
    items_loopV recV cfuel E dev q clobber owner dest l v ws = (ws', o) -> R ws ws'.
  Proof.
    intros HR. induction l as [|[k di] l IH]; intros v HI ws ws' o HL H; cbn [items_loopV] in H; [injection H as <- _; apply R_refl|].
    assert (H0 : In (k, di) (st_items (q_dirItems q owner dir))) by (apply HI; left; reflexivity). assert (HI' : incl l (st_items (q_dirItems q owner dir))) by (intros x Hx; apply HI; right; exact Hx).
    destruct ws as [w s]. unfold vbind at 1, up at 1, lift in H. destruct (classify owner dest di) as [a| |] eqn:EC; [|injection H as <- _; apply R_refl|injection H as <- _; apply R_refl].
    unfold vbind at 1 in H.
    match type of H with context [match ?m (w, s) with _ => _ end] => set (M0 := m) in H end.
    assert (G : forall ws1 o1, M0 (w, s) = (ws1, o1) -> R (w, s) ws1).
    { unfold M0. clear H M0 IH. destruct a as [|o0 d p|i p|i p].
      - intros ws1 o1 H. unfold vbind at 1, up, lift in H. destruct (special dest di) as [x| |] eqn:ES; [|injection H as <- _; apply R_refl|injection H as <- _; apply R_refl].
        destruct x as [[p t]|]; [|injection H as <- _; apply R_refl]. unfold vbind, say, vret in H. injection H as <- _. destruct (special_facts _ _ _ _ _ EC ES) as (name & F1 & F2 & F3 & F4).
        exists [], [SSpecial p t]. repeat split. constructor; [|constructor]. cbn [true_line]. exists owner, dir, dest, k, di, name. cbn [fst] in HL |- *. auto 10.
      - apply (tells_then (recV o0 d p v) _ (HR o0 d p v)). intros r. apply tells_then; [apply tells_up, quiet_warn|intros _; apply tells_ret].
      - apply (tells_then _ _ (tells_file cfuel E dev owner i p)). intros r. apply tells_then; [apply tells_up, quiet_warn|intros _; apply tells_ret].
      - apply (tells_then _ _ (tells_link E dev owner i p)). intros r. apply tells_then; [apply tells_up, quiet_warn|intros _; apply tells_ret]. }
    clearbody M0. destruct (M0 (w, s)) as [ws1 o1]. specialize (G _ _ eq_refl). destruct o1 as [v'| | |]; [|injection H as <- _; exact G|injection H as <- _; exact G|injection H as <- _; exact G].
    apply (R_trans _ _ _ G). apply (IH v' HI' ws1 ws' o); [|exact H]. destruct G as (evs & l' & G1 & _). rewrite G1. apply in_or_app. right. exact HL.
  Qed.
  Lemma tells_dir fuel : forall owner dir dest v, tells (recoverDirV fuel cfuel E dev q clobber owner dir dest v).
  Proof.
    induction fuel as [|fuel IH]; intros owner dir dest v; cbn [recoverDirV]; [intros ws ws' o H; injection H as <- _; apply R_refl|].
    destruct (key_in (owner, dir) v); [apply tells_ret|]. apply tells_then; [apply tells_up, quiet_mk|]. intros [|]; cbn [negb]; [|apply tells_ret].
    apply tells_bind; [apply tells_up, logs_emit; reflexivity|]. intros [w s] ws1 [] HE. assert (HL : In (EvList owner dir) (w_log (fst ws1))) by (unfold up, emit in HE; injection HE as <-; left; reflexivity). clear HE.
    intros ws2 o H. unfold vbind at 1 in H. destruct (up (lift (st_end (q_dirItems q owner dir))) ws1) as [ws3 o3] eqn:EL.
    pose proof (tells_up _ (quiet_lift (st_end (q_dirItems q owner dir))) _ _ _ EL) as RL.
    destruct o3 as [[]| | |]; [|injection H as <- _; exact RL|injection H as <- _; exact RL|injection H as <- _; exact RL].
    apply (R_trans _ _ _ RL). unfold vbind in H. destruct (items_loopV _ cfuel E dev q clobber owner dest _ _ ws3) as [ws4 o4] eqn:EI.
    assert (G : R ws3 ws4). { eapply (tells_items _ owner dir dest); [intros; apply IH|apply incl_refl| |exact EI]. destruct RL as (evs & l' & G1 & _). rewrite G1. apply in_or_app. right. exact HL. }
    destruct o4; injection H as <- _; exact G.
  Qed.
  Lemma tells_subvols fuel : forall l fin v, incl l (st_items (q_subvolumes q)) -> tells (subvols_loopV fuel cfuel E dev q clobber dest0 l fin v).
  Proof.
    induction l as [|[k d] l IH]; intros fin v HI; cbn [subvols_loopV]; [apply tells_then; [apply tells_up, quiet_lift|intros _; apply tells_ret]|].
    assert (H0 : In (k, d) (st_items (q_subvolumes q))) by (apply HI; left; reflexivity).
    apply tells_then; [|intros v'; apply IH; intros x Hx; apply HI; right; exact Hx]. destruct (key_in _ v); [apply tells_ret|].
    apply tells_then; [apply tells_say; [reflexivity|]|].
    - intros log. cbn [true_line]. split; [exists k, d; split; [exact H0|reflexivity]|reflexivity].
    - intros _. apply tells_then; [apply tells_dir|]. intros r. apply tells_then; [apply tells_up, quiet_warn|intros _; apply tells_ret].
  Qed.
  Lemma tells_recover fuel : tells (doRecoverFilesV fuel cfuel E dev q clobber dest0).
  Proof.
    unfold doRecoverFilesV. apply tells_then; [apply tells_up, quiet_mk|]. intros [|]; cbn [negb].
    - apply tells_then; [apply tells_say; [reflexivity|intros log; reflexivity]|]. intros _. apply tells_then; [apply tells_dir|]. intros r. apply tells_then; [apply tells_up, quiet_warn|]. intros _.
      apply tells_then; [apply tells_subvols, incl_refl|]. intros v. apply tells_ret.
    - apply tells_then; [apply tells_up, logs_emit; reflexivity|intros _; apply tells_ret].
  Qed.
End Told.
(** The lines about files and links name, in order, exactly the files opened for writing and the links attempted; every line is true. *)
Theorem C106_told : forall fuel cfuel E dev q clobber dest w w' said o, doRecoverFilesV fuel cfuel E dev q clobber dest (w, []) = ((w', said), o) ->
  exists evs, w_log w' = evs ++ w_log w /\ flat_map told_of (rev said) = flat_map done_of (rev evs) /\ Forall (true_line q clobber dest (w_log w')) said.
Proof.
  intros fuel cfuel E dev q clobber dest w w' sd o H. destruct (tells_recover q clobber dest cfuel E dev fuel _ _ _ H) as (evs & l & H1 & H2 & H3 & H4). cbn [fst snd] in *. rewrite app_nil_r in H2. subst l.
  exists evs. split; [exact H1|]. split; [|exact H4].
  assert (G : forall A B (f : A -> list B) l, (forall a, (List.length (f a) <= 1)%nat) -> flat_map f (rev l) = rev (flat_map f l)).
  { intros A B f l Hf. induction l as [|a l IH]; [reflexivity|]. cbn [rev flat_map]. rewrite flat_map_app, IH, rev_app_distr. cbn [flat_map]. rewrite app_nil_r. f_equal. specialize (Hf a). destruct (f a) as [|x [|]]; [reflexivity|reflexivity|cbn in Hf; lia]. }
  rewrite !G, H3; [reflexivity| |].
  - intros e. destruct e as [[] p []|[] p| | |]; cbn; lia.
  - intros e. destruct e; cbn; lia.
Qed.

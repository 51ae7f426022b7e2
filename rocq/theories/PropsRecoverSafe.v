(** C46, C47, C63: what recover leaves alone. *)
From Verif Require Import Go GoProofs Layout KeyFmt Bolt Store Fs Recover RecoverProofs SpecFs PathProofs FsProofs.
From Coq Require Import ZifyBool ZifyNat ZifyN.
Ltac Zify.zify_post_hook ::= Z.div_mod_to_equations.

Lemma syscall_cases {A} E k s (eff : fs -> fs * option A) part w w' o : syscall E k s eff part w = (w', o) ->
  (exists F r, e_faults E (w_ops w) k = FNone /\ eff (w_fs w) = (F, r) /\ w_fs w' = F /\ o = Ret r) \/
  (exists n, w_fs w' = part n (w_fs w) /\ (o = Ret None /\ e_faults E (w_ops w) k = FErr n \/ o = OCrash)).
Proof.
  unfold syscall. destruct (e_faults E (w_ops w) k) as [|n|n] eqn:EF.
  - destruct (eff (w_fs w)) as [F r] eqn:EE. intros H. injection H as <- <-. left. exists F, r. auto.
  - intros H. injection H as <- <-. right. exists n. auto.
  - intros H. injection H as <- <-. right. exists n. auto.
Qed.

(** ** C47 *)
Section NoClobber.
  Variable F0 : fs.
  Definition ext (F : fs) : Prop := forall p n, look F0 p = Some n -> look F p = Some n.
  Definition Rext (w w' : world) : Prop := ext (w_fs w) -> ext (w_fs w').
  Lemma Rext_refl w : Rext w w. Proof. exact (fun H => H). Qed.
  Lemma Rext_trans a b c : Rext a b -> Rext b c -> Rext a c. Proof. intros H1 H2 H. exact (H2 (H1 H)). Qed.
  Lemma ext_put F p n : ext F -> look F0 p = None -> ext (put_node F p n).
  Proof.
    intros H HN p' n' Hp'. rewrite look_put by (apply (look_missing F0); congruence). destruct (cpath_dec p p') as [->|]; [congruence|]. apply H; exact Hp'.
  Qed.
  Lemma ext_none F p : ext F -> look F p = None -> look F0 p = None.
  Proof. intros H HN. destruct (look F0 p) eqn:E; [rewrite (H _ _ E) in HN; discriminate|reflexivity]. Qed.
  (** system calls that keep what there is *)
  Lemma ext_syscall {A} E k s (eff : fs -> fs * option A) part : (forall F, ext F -> ext (fst (eff F))) -> (forall n F, ext F -> ext (part n F)) -> keeps Rext (syscall E k s eff part).
  Proof.
    intros H1 H2 w w' o H HE. apply syscall_cases in H as [(F & r & _ & EF & -> & _)|(n & -> & _)]; [|apply H2; exact HE]. specialize (H1 _ HE). rewrite EF in H1. exact H1.
  Qed.
  Lemma ext_stat cwd fl s F : ext F -> ext (fst (sys_stat cwd fl s F)). Proof. exact (fun H => H). Qed.
  Lemma ext_nothing n F : ext F -> ext (nothing n F). Proof. exact (fun H => H). Qed.
  Lemma ext_mkdir cwd s F : ext F -> ext (fst (sys_mkdir cwd s F)).
  Proof. intros H. unfold sys_mkdir. destruct (resolve F cwd false s) as [p|]; [|exact H]. destruct (look F p) eqn:EL; [exact H|]. apply ext_put; [exact H|exact (ext_none _ _ H EL)]. Qed.
  Lemma ext_symlink cwd t s F : ext F -> ext (fst (sys_symlink cwd t s F)).
  Proof.
    intros H. unfold sys_symlink. destruct (path_arg t); [|exact H]. destruct (resolve F cwd false s) as [p|]; [|exact H]. destruct (look F p) eqn:EL; [exact H|].
    apply ext_put; [exact H|exact (ext_none _ _ H EL)].
  Qed.
  Lemma ext_write h d off F : look F0 h = None -> ext F -> ext (fst (sys_write h d off F)).
  Proof.
    intros HN H. unfold sys_write. destruct (off <? 0); [exact H|]. destruct (is_nil d); [exact H|]. destruct (_ <? _); [exact H|].
    destruct (look F h) as [[c| |]|]; try exact H. apply ext_put; assumption.
  Qed.
  Lemma ext_trunc h n F : look F0 h = None -> ext F -> ext (fst (sys_trunc h n F)).
  Proof. intros HN H. unfold sys_trunc. destruct (n <? 0); [exact H|]. destruct (look F h) as [[c| |]|]; try exact H. apply ext_put; assumption. Qed.
  Lemma ext_read dev n o : keeps Rext (devRead dev n o).
  Proof. intros w w' r H. unfold devRead in H. destruct (dev n o). injection H as <- <-. exact (fun H => H). Qed.
  Lemma ext_file E (HS : forall n k, e_faults E n OStat <> FErr k) cfuel dev q owner i path : keeps Rext (recoverFile cfuel E dev q false owner i path).
  Proof.
    intros w w' o H HE. unfold recoverFile in H. unfold bind at 1 in H. destruct (Stat E path w) as [w1 o1] eqn:ES.
    apply syscall_cases in ES as [(F & r & _ & EF & Ew & ->)|(n & Ew & [[-> EE]| ->])]; [|destruct (HS _ _ EE)|injection H as <- _; rewrite Ew; exact HE].
    unfold sys_stat in EF. pose proof (f_equal fst EF) as EF1. pose proof (f_equal snd EF) as EF2. cbn [fst snd] in EF1, EF2. clear EF. rewrite <- EF1 in Ew. clear EF1 F.
    assert (HE1 : ext (w_fs w1)) by (rewrite Ew; exact HE).
    destruct r as [k|]; cbn [is_some negb andb] in H; [injection H as <- _; exact HE1|].
    unfold bind at 1, lift at 1 in H. destruct (q_inode q owner i) as [ino| |]; [|injection H as <- _; exact HE1|injection H as <- _; exact HE1].
    unfold bind at 1, lift at 1 in H. destruct (match ino with Some d => _ | None => _ end) as [ii| |]; [|injection H as <- _; exact HE1|injection H as <- _; exact HE1].
    unfold bind at 1 in H. destruct (OpenFile E path w1) as [w2 o2] eqn:EO.
    apply syscall_cases in EO as [(F & r & _ & EF & Ew2 & ->)|(n & Ew2 & [[-> EE]| ->])]; [|injection H as <- _; rewrite Ew2; exact HE1|injection H as <- _; rewrite Ew2; exact HE1].
    unfold sys_open in EF. rewrite Ew in EF.
    destruct (resolve (w_fs w) (e_cwd E) true path) as [p|] eqn:ER; [|injection EF as <- <-; injection H as <- _; rewrite Ew2, <- Ew; exact HE1].
    destruct (look (w_fs w) p) as [nd|] eqn:EL; [discriminate EF2|]. injection EF as <- <-.
    pose proof (ext_none _ _ HE EL) as HN. assert (HE2 : ext (w_fs w2)) by (rewrite Ew2; apply ext_put; assumption).
    refine (keeps_fill Rext Rext_refl Rext_trans cfuel E dev q path _ p _ _ ii (q_extents q owner i) w2 w' o H HE2).
    - intros n off. apply ext_read.
    - intros d off. apply ext_syscall; [intros F; apply ext_write; exact HN|intros n F; apply ext_write; exact HN].
    - intros s. apply ext_syscall; [intros F; apply ext_trunc; exact HN|exact ext_nothing].
  Qed.
  Lemma ext_recover E (HS : forall n k, e_faults E n OStat <> FErr k) fuel cfuel dev q dest : keeps Rext (doRecoverFiles fuel cfuel E dev q false dest).
  Proof.
    refine (keeps_recover Rext Rext_refl Rext_trans cfuel E dev q false (fun _ => True) (fun _ => True) _ _ _ _ _ _ fuel dest Logic.I).
    - intros e _ w w' o H. unfold emit in H. injection H as <- _. exact (fun H => H).
    - intros s _. apply (keeps_mkall Rext Rext_refl Rext_trans E (fun _ => True)); [auto| | | |exact Logic.I]; intros s1 _; (apply ext_syscall; [|exact ext_nothing]).
      + intros F. apply ext_stat.
      + intros F. apply ext_stat.
      + intros F. apply ext_mkdir.
    - intros owner i s _. apply ext_file. exact HS.
    - intros di owner d i s _ _ _. apply keeps_symlink; [exact Rext_refl|exact Rext_trans|intros; apply ext_read| |discriminate|].
      + apply ext_syscall; [intros F; apply ext_stat|exact ext_nothing].
      + intros t. apply ext_syscall; [intros F; apply ext_symlink|exact ext_nothing].
    - auto.
    - intros o d. apply Forall_forall. auto.
  Qed.
End NoClobber.

(** C47.  Without --clobber every file, directory and link that exists before the
    command is there afterwards with the same content, whatever the index says,
    whichever system calls fail and wherever the command is killed; os.Stat itself
    must not fail on existing files (see C47_stat_fault_refuted). *)
Theorem C47_no_clobber fuel cfuel E dev q dest w w' o :
  (forall n k, e_faults E n OStat <> FErr k) ->
  doRecoverFiles fuel cfuel E dev q false dest w = (w', o) ->
  forall p n, look (w_fs w) p = Some n -> look (w_fs w') p = Some n.
Proof. intros HS H p n Hp. apply (ext_recover (w_fs w) E HS fuel cfuel dev q dest w w' o H); [intros p' n' H'; exact H'|exact Hp]. Qed.
Print Assumptions C47_no_clobber.

(** C63 for recover: without --clobber the image is not changed, even if it lies
    in the destination *)
Theorem C63_image_kept_partial fuel cfuel E dev q dest w w' o image content :
  (forall n k, e_faults E n OStat <> FErr k) ->
  look (w_fs w) image = Some (NFile content) ->
  doRecoverFiles fuel cfuel E dev q false dest w = (w', o) ->
  look (w_fs w') image = Some (NFile content).
Proof. intros HS Hi H. exact (C47_no_clobber fuel cfuel E dev q dest w w' o HS H _ _ Hi). Qed.
Print Assumptions C63_image_kept_partial.

(** ** C46 *)
Definition below (D p : cpath) : Prop := exists r, p = D ++ r.
Section Inside.
  Variables (E : env) (dest : list byte) (F0 : fs) (D : cpath).
  Hypothesis W : wf_fs F0.
  Hypothesis Hcwd : look F0 (e_cwd E) = Some NDir.
  Hypothesis HDd : resolve F0 (e_cwd E) true dest = Some D.
  Hypothesis HDc : resolve F0 (e_cwd E) true (Clean dest) = Some D.
  Hypothesis HDir : look F0 D = Some NDir.
  (** outside [D] nothing changed, directories stay, [D] is free of links *)
  Definition Jin (F : fs) : Prop :=
    (forall p, ~ below D p -> look F p = look F0 p) /\ (forall p, look F0 p = Some NDir -> look F p = Some NDir) /\
    (forall r t, look F (D ++ r) <> Some (NLink t)).
  Definition Rin (w w' : world) : Prop := Jin (w_fs w) -> Jin (w_fs w').
  Lemma Rin_refl w : Rin w w. Proof. exact (fun H => H). Qed.
  Lemma Rin_trans a b c : Rin a b -> Rin b c -> Rin a c. Proof. intros H1 H2 H. exact (H2 (H1 H)). Qed.
  Lemma below_dec p : {below D p} + {~ below D p}.
  Proof.
    clear. revert p. induction D as [|c D' IH]; intros p; [left; exists p; reflexivity|]. destruct p as [|d p]; [right; intros [r H]; discriminate|].
    destruct (list_eq_dec Byte.byte_eq_dec c d) as [->|N]; [|right; intros [r H]; injection H as H _; congruence].
    destruct (IH p) as [H|H]; [left; destruct H as [r ->]; exists r; reflexivity|right; intros [r Hr]; injection Hr as Hr; apply H; exists r; exact Hr].
  Qed.
  Lemma Jin_mono F : Jin F0 -> Jin F -> mono F0 F.
  Proof.
    intros (_ & _ & HL0) (HO & HD & HL). split; [exact HD|]. intros p t Hp. destruct (below_dec p) as [[r ->]|N]; [destruct (HL0 _ _ Hp)|rewrite HO by exact N; exact Hp].
  Qed.
  Lemma Jin_put F r n : Jin F -> r <> [] -> (forall t, n <> NLink t) -> look F (D ++ r) <> Some NDir -> Jin (put_node F (D ++ r) n).
  Proof.
    intros (HO & HD & HL) Hr Hn HF. assert (HP : D ++ r <> []) by (intros A; apply app_eq_nil in A as [_ A]; contradiction). split; [|split].
    - intros p Hp. rewrite look_put by exact HP. destruct (cpath_dec (D ++ r) p) as [<-|]; [destruct Hp; exists r; reflexivity|apply HO; exact Hp].
    - intros p Hp. rewrite look_put by exact HP. destruct (cpath_dec (D ++ r) p) as [<-|]; [destruct (HF (HD _ Hp))|apply HD; exact Hp].
    - intros r' t. rewrite look_put by exact HP. destruct (cpath_dec (D ++ r) (D ++ r')); [|apply HL]. intros A. injection A as A. exact (Hn t A).
  Qed.
  (** where a path recover uses leads *)
  Lemma inside_leads F fl s p : Jin F0 -> Jin F -> inside dest s -> resolve F (e_cwd E) fl s = Some p ->
    (exists r, r <> [] /\ p = D ++ r) \/ (look F p <> None /\ (fl = true -> p = D)).
  Proof.
    intros J0 J HI HR. pose proof (Jin_mono F J0 J) as HM.
    assert (HWC : forall s0 (b := comps s0) cur, walk max_links F0 true b cur = Some D -> look F0 cur = Some NDir -> forall p, walk max_links F fl b cur = Some p -> look F p <> None /\ (fl = true -> p = D)).
    { intros s0 b cur HW HC p' HP. destruct fl.
      - rewrite (walk_mono F0 F HM _ _ _ _ HW HDir) in HP. injection HP as <-. split; [rewrite (proj1 HM _ HDir); discriminate|reflexivity].
      - rewrite <- (app_nil_r b) in HW. destruct (walk_leading F0 F [] W HM _ _ _ _ HC HW HDir) as (q' & EQ & HQ). rewrite EQ in HP. injection HP as <-. split; [exact HQ|discriminate]. }
    unfold resolve in HR, HDd, HDc. destruct HI as [->|(cs & HF & ->)].
    - right. destruct (path_arg dest); [|discriminate]. apply (HWC dest _ HDd); [destruct (is_abs dest); [reflexivity|exact Hcwd]|exact HR].
    - destruct (path_arg (Clean dest)) eqn:EPA; [|discriminate]. destruct (path_arg (sub_path (Clean dest) cs)) eqn:EPS; [|discriminate].
      assert (HCC := cstack_canon dest). rewrite Clean_render in HDc. rewrite render_abs, comps_render in HDc by exact HCC.
      destruct cs as [|c0 cs0] eqn:ECS.
      + right. cbn [sub_path] in HR. rewrite Clean_render, render_abs, comps_render in HR by exact HCC. pose proof (HWC (render (is_abs dest) (cstack dest))) as HX. cbv zeta in HX. rewrite comps_render in HX by exact HCC.
        apply (HX _ HDc); [destruct (is_abs dest); [reflexivity|exact Hcwd]|exact HR].
      + rewrite <- ECS in *. left. exists cs. split; [subst; discriminate|]. rewrite inside_render in HR by exact HF.
        pose proof (canon_apps _ _ _ HCC HF) as HCA. rewrite render_abs, comps_render in HR by exact HCA.
        pose proof (walk_mono F0 F HM _ _ _ _ HDc HDir) as HWM.
        destruct (walk_app F fl cs ltac:(subst; discriminate) _ _ _ _ HWM (proj1 HM _ HDir)) as (L' & EW). rewrite EW in HR.
        destruct J as (_ & _ & HL). pose proof (walk_inside F fl D HL cs [] L' p) as HI. rewrite app_nil_r in HI. cbn [app] in HI. apply HI; [|exact HR].
        rewrite Forall_forall in *. intros c Hc. apply plain_okc, HF, Hc.
  Qed.
  Lemma leading_leads F s p : Jin F0 -> Jin F -> leading s dest \/ leading s (Clean dest) -> resolve F (e_cwd E) false s = Some p -> look F p <> None.
  Proof.
    intros J0 J HI HR. pose proof (Jin_mono F J0 J) as HM. assert (G : forall d, leading s d -> resolve F0 (e_cwd E) true d = Some D -> look F p <> None).
    { intros d [r ->] HD. unfold resolve in HR, HD. destruct (path_arg s) eqn:EP; [|discriminate]. destruct (path_arg (s ++ slash :: r)); [|discriminate].
      rewrite comps_app in HD. assert (s <> []) by (intros ->; discriminate EP). rewrite is_abs_app in HD by assumption.
      destruct (walk_leading F0 F (comps r) W HM max_links (comps s) (if is_abs s then [] else e_cwd E) D) as (q' & EQ & HQ); [destruct (is_abs s); [reflexivity|exact Hcwd]|exact HD|exact HDir|].
      rewrite EQ in HR. injection HR as <-. exact HQ. }
    destruct HI as [HI|HI]; [exact (G _ HI HDd)|exact (G _ HI HDc)].
  Qed.
  Lemma in_syscall {A} k s (eff : fs -> fs * option A) part : (forall F, Jin F -> Jin (fst (eff F))) -> (forall n F, Jin F -> Jin (part n F)) -> keeps Rin (syscall E k s eff part).
  Proof.
    intros H1 H2 w w' o H HE. apply syscall_cases in H as [(F & r & _ & EF & -> & _)|(n & -> & _)]; [|apply H2; exact HE]. specialize (H1 _ HE). rewrite EF in H1. exact H1.
  Qed.
  Lemma in_nothing n F : Jin F -> Jin (nothing n F). Proof. exact (fun H => H). Qed.
  Lemma in_write h d off F : (exists r, r <> [] /\ h = D ++ r) -> Jin F -> Jin (fst (sys_write h d off F)).
  Proof.
    intros (r & Hr & ->) H. unfold sys_write. destruct (off <? 0); [exact H|]. destruct (is_nil d); [exact H|]. destruct (_ <? _); [exact H|].
    destruct (look F (D ++ r)) as [[c| |]|] eqn:EL; try exact H. apply Jin_put; [exact H|exact Hr|discriminate|congruence].
  Qed.
  Lemma in_trunc h n F : (exists r, r <> [] /\ h = D ++ r) -> Jin F -> Jin (fst (sys_trunc h n F)).
  Proof.
    intros (r & Hr & ->) H. unfold sys_trunc. destruct (n <? 0); [exact H|]. destruct (look F (D ++ r)) as [[c| |]|] eqn:EL; try exact H. apply Jin_put; [exact H|exact Hr|discriminate|congruence].
  Qed.
  Lemma in_read dev n o : keeps Rin (devRead dev n o).
  Proof. intros w w' r H. unfold devRead in H. destruct (dev n o). injection H as <- <-. exact (fun H => H). Qed.
  Lemma in_stat k (fl : bool) s A (f : fs -> option A) : keeps Rin (syscall E k s (fun F => (F, f F)) nothing).
  Proof. apply in_syscall; [intros F H; exact H|exact in_nothing]. Qed.
  Lemma in_file (J0 : Jin F0) cfuel dev q clobber owner i path : inside dest path -> keeps Rin (recoverFile cfuel E dev q clobber owner i path).
  Proof.
    intros HI. unfold recoverFile. apply keeps_bind; [exact Rin_trans|apply (in_stat OStat true)|]. intros k. destruct (is_some k && negb clobber); [apply keeps_ret; exact Rin_refl|].
    apply keeps_lift_bind; [exact Rin_refl|]. intros ino _. apply keeps_lift_bind; [exact Rin_refl|]. intros ii _.
    intros w w' o H HJ. unfold bind at 1 in H. destruct (OpenFile E path w) as [w2 o2] eqn:EO.
    apply syscall_cases in EO as [(F & r & _ & EF & Ew2 & ->)|(n & Ew2 & [[-> EE]| ->])]; [|injection H as <- _; rewrite Ew2; exact HJ|injection H as <- _; rewrite Ew2; exact HJ].
    unfold sys_open in EF. destruct (resolve (w_fs w) (e_cwd E) true path) as [p|] eqn:ER; [|injection EF as <- <-; injection H as <- _; rewrite Ew2; exact HJ].
    assert (HP : look (w_fs w) p <> Some NDir -> exists r, r <> [] /\ p = D ++ r).
    { intros HN. destruct (inside_leads _ _ _ _ J0 HJ HI ER) as [HX|[_ HX]]; [exact HX|]. rewrite (HX eq_refl) in HN. destruct HN. apply HJ; exact HDir. }
    assert (HC : look (w_fs w) p <> Some NDir -> Jin (put_node (w_fs w) p (NFile []))).
    { intros HN. destruct (HP HN) as (r0 & Hr & ->). apply Jin_put; [exact HJ|exact Hr|discriminate|exact HN]. }
    assert (HFill : forall w2, (exists r, r <> [] /\ p = D ++ r) -> fill_file cfuel E dev q path ii p (q_extents q owner i) w2 = (w', o) -> Jin (w_fs w2) -> Jin (w_fs w')).
    { intros w3 Hpp. refine (keeps_fill Rin Rin_refl Rin_trans cfuel E dev q path _ p _ _ ii (q_extents q owner i) w3 w' o).
      - intros n off. apply in_read.
      - intros d off. apply in_syscall; [intros F'; apply in_write; exact Hpp|intros n F'; apply in_write; exact Hpp].
      - intros s. apply in_syscall; [intros F'; apply in_trunc; exact Hpp|exact in_nothing]. }
    destruct (look (w_fs w) p) as [[c| |t]|] eqn:EL.
    - injection EF as <- <-. apply (HFill w2); [apply HP; discriminate|exact H|rewrite Ew2; apply HC; discriminate].
    - injection EF as <- <-. injection H as <- _. rewrite Ew2. exact HJ.
    - injection EF as <- <-. injection H as <- _. rewrite Ew2. exact HJ.
    - injection EF as <- <-. apply (HFill w2); [apply HP; discriminate|exact H|rewrite Ew2; apply HC; discriminate].
  Qed.
  Lemma in_recover (J0 : Jin F0) fuel cfuel dev q clobber :
    (forall o d e, In e (st_items (q_dirItems q o d)) -> DirItem_Type (snd e) <> Ok FtSymlink) ->
    keeps Rin (doRecoverFiles fuel cfuel E dev q clobber dest).
  Proof.
    intros HQ. refine (keeps_recover Rin Rin_refl Rin_trans cfuel E dev q clobber (inside dest) (fun di => DirItem_Type di <> Ok FtSymlink) _ _ _ _ _ _ fuel dest (or_introl eq_refl)).
    - intros e _ w w' o H. unfold emit in H. injection H as <- _. exact (fun H => H).
    - intros s Hs. apply (keeps_mkall Rin Rin_refl Rin_trans E (fun s => inside dest s \/ leading s dest \/ leading s (Clean dest))).
      + intros s1 p [H1|H1] HP; [exact (parent_inside dest s1 p H1 HP)|]. destruct (parent_leading _ _ HP) as (_ & HL & _). right. destruct H1 as [H1|H1]; [left|right]; exact (leading_trans _ _ _ HL H1).
      + intros s1 _. apply (in_stat OStat true).
      + intros s1 _. apply (in_stat OLstat true).
      + intros s1 H1. apply in_syscall; [|exact in_nothing]. intros F HJ. unfold sys_mkdir. destruct (resolve F (e_cwd E) false s1) as [p|] eqn:ER; [|exact HJ].
        destruct (look F p) eqn:EL; [exact HJ|]. cbn [fst]. destruct H1 as [H1|H1].
        * destruct (inside_leads _ _ _ _ J0 HJ H1 ER) as [(r & Hr & ->)|[HX _]]; [|contradiction]. apply Jin_put; [exact HJ|exact Hr|discriminate|congruence].
        * destruct (leading_leads _ _ _ J0 HJ H1 ER EL).
      + left. exact Hs.
    - intros owner i s Hs. apply in_file; assumption.
    - intros di owner dst i s Hdi HC _. exfalso. apply Hdi. revert HC. unfold classify. destruct (DirItem_Name di); cbn [rbind]; try discriminate. destruct (skip_name _); [discriminate|]. cbv zeta.
      destruct (DirItem_IsDir di) as [isd| |]; cbn [rbind]; try discriminate. destruct (if isd then Ok true else DirItem_IsSubvolume di) as [[]| |]; cbn [rbind]; try discriminate.
      + destruct (DirItem_Location di); cbn [rbind]; try discriminate. destruct (DirItem_IsSubvolume di) as [[]| |]; cbn [rbind]; discriminate.
      + destruct (DirItem_Type di) as [t| |] eqn:ET; cbn [rbind]; try discriminate. destruct (t =? FtRegFile); [destruct (DirItem_Location di); discriminate|].
        destruct (t =? FtSymlink) eqn:E7; [|discriminate]. intros _. apply Z.eqb_eq in E7. congruence.
    - intros s n. apply Join_inside.
    - intros o d. apply Forall_forall. intros e. apply HQ.
  Qed.
End Inside.

(** C46, the part that holds.  If the destination exists as directory [D] (and is
    the same directory under its cleaned name), [D] contains no symbolic links,
    and no item read is a symbolic link, then no file outside [D] is created,
    changed or removed: with and without --clobber, for any names, directory
    graphs, device, faults and crash points. *)
Theorem C46_nothing_outside_partial fuel cfuel E dev q clobber dest w w' o D :
  wf_fs (w_fs w) -> look (w_fs w) (e_cwd E) = Some NDir ->
  resolve (w_fs w) (e_cwd E) true dest = Some D -> resolve (w_fs w) (e_cwd E) true (Clean dest) = Some D ->
  look (w_fs w) D = Some NDir -> (forall r t, look (w_fs w) (D ++ r) <> Some (NLink t)) ->
  (forall o d e, In e (st_items (q_dirItems q o d)) -> DirItem_Type (snd e) <> Ok FtSymlink) ->
  doRecoverFiles fuel cfuel E dev q clobber dest w = (w', o) ->
  forall p, ~ below D p -> look (w_fs w') p = look (w_fs w) p.
Proof.
  intros W HC HD HDc HDir HL HQ H p Hp.
  assert (J0 : Jin (w_fs w) D (w_fs w)) by (split; [auto|split; [auto|exact HL]]).
  destruct (in_recover E dest (w_fs w) D W HC HD HDc HDir J0 fuel cfuel dev q clobber HQ w w' o H J0) as (HO & _). apply HO; exact Hp.
Qed.
Print Assumptions C46_nothing_outside_partial.

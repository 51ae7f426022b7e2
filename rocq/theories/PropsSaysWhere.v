(** C106 (continued): the lines give the path an entry is recovered to. *)
From Verif Require Import Go GoProofs Layout KeyFmt Bolt Store ToString Fs Recover RecoverProofs PropsRecoverPaths RecoverSays PropsText PropsReport PropsRecoverSays PropsSaysAll PropsSaysSub.
From Coq Require Import Strings.String.
From Coq Require Import List ZifyBool ZifyNat.
Import ListNotations.
Ltac Zify.zify_post_hook ::= Z.div_mod_to_equations.

(** the path for directory [d] of tree [o]: that of the root, of a subvolume no entry leads to, or that of the entry that leads to it *)
Inductive leads (q : queries) (dest : list byte) (log : list event) : Z -> Z -> list byte -> Prop :=
| lead_root : leads q dest log 5 256 dest
| lead_sub k d o : In (k, d) (st_items (q_subvolumes q)) -> o = ObjectID (ik_Key k) -> leads q dest log o 256 (Join dest (str "subvol_"%string ++ dec o))
| lead_entry o' d' p k di name loc o d : leads q dest log o' d' p -> In (EvList o' d') log -> In (k, di) (st_items (q_dirItems q o' d')) ->
    DirItem_Name di = Ok name -> skip_name name = false -> DirItem_Location di = Ok loc ->
    (KType loc = 132 /\ o = ObjectID loc /\ d = 256) \/ (KType loc <> 132 /\ DirItem_Type di = Ok 2 /\ o = o' /\ d = ObjectID loc) ->
    leads q dest log o d (Join p name).
Section Where.
  Variables (cfuel : nat) (E : env) (dev : readerAt) (q : queries) (clobber : bool) (dest0 : list byte).
  Lemma leads_more (a b : world * list said) o d p : grows a b -> leads q dest0 (w_log (fst a)) o d p -> leads q dest0 (w_log (fst b)) o d p.
  Proof.
    intros G H. induction H as [|k d o HI HO|o' d' p k di name loc o d H IH HL HI HN HS HLoc HT]; [apply lead_root|exact (lead_sub _ _ _ k d o HI HO)|].
    exact (lead_entry _ _ _ o' d' p k di name loc o d IH (grows_in_log a b _ G HL) HI HN HS HLoc HT).
  Qed.
  Definition told_at (b : world * list said) (o d : Z) : Prop :=
    exists dst, leads q dest0 (w_log (fst b)) o d dst /\ forall k di, In (k, di) (st_items (q_dirItems q o d)) -> entry_told (snd b) (w_log (fst b)) dst di.
  Definition lists_at (a b : world * list said) : Prop := grows a b /\ forall o d, In (EvList o d) (w_log (fst b)) -> In (EvList o d) (w_log (fst a)) \/ told_at b o d.
  Lemma at_refl a : lists_at a a.
  Proof. split; [apply grows_refl|auto]. Qed.
  Lemma at_trans a b c : lists_at a b -> lists_at b c -> lists_at a c.
  Proof.
    intros [G1 H1] [G2 H2]. split; [exact (grows_trans _ _ _ G1 G2)|]. intros o d HI. destruct (H2 o d HI) as [X|X]; [|right; exact X]. destruct (H1 o d X) as [Y|(dst & Y & Z)]; [left; exact Y|].
    right. exists dst. split; [exact (leads_more _ _ _ _ _ G2 Y)|]. intros k di Hd. exact (entry_more _ _ _ _ G2 (Z k di Hd)).
  Qed.
  (** steps that read no directory *)
  Lemma at_up {A} (m : M A) ws ws' a : keeps (logs nolist) m -> up m ws = (ws', Ret a) -> lists_at ws ws'.
  Proof.
    intros H. destruct ws as [w s]. intros E1. unfold up in E1. destruct (m w) as [w' o'] eqn:Em. injection E1 as <- ->. destruct (H _ _ _ Em) as (evs & L & F). split.
    - split; [exists evs; exact L|exists []; reflexivity].
    - intros o d HI. cbn [fst] in *. rewrite L in HI. apply in_app_or in HI as [HI|HI]; [|left; exact HI]. rewrite Forall_forall in F. destruct (F _ HI).
  Qed.
  Definition steps {A} (v : V A) : Prop := forall ws ws' a, v ws = (ws', Ret a) -> lists_at ws ws'.
  Lemma steps_ret {A} (a : A) : steps (vret a).
  Proof. intros ws ws' b H. injection H as <- _. apply at_refl. Qed.
  Lemma steps_bind {A B} (v : V A) (f : A -> V B) : steps v -> (forall a, steps (f a)) -> steps (vbind v f).
  Proof. intros Hv Hf ws ws' b H. apply vbind_ret in H as (ws1 & a & H1 & H2). exact (at_trans _ _ _ (Hv _ _ _ H1) (Hf a _ _ _ H2)). Qed.
  Lemma steps_up {A} (m : M A) : keeps (logs nolist) m -> steps (up m).
  Proof. intros H ws ws' a HE. exact (at_up m ws ws' a H HE). Qed.
  Lemma steps_say x : steps (say x).
  Proof. intros [w s] ws' a H. injection H as <- _. split; [split; [exists []|exists [x]]; reflexivity|auto]. Qed.
  Lemma steps_file owner i p : steps (recoverFileV cfuel E dev q clobber owner i p).
  Proof.
    unfold recoverFileV. apply steps_bind; [apply steps_up, no_sys|]. intros k. destruct (is_some k && negb clobber); [apply steps_bind; [apply steps_say|intros _; apply steps_ret]|].
    apply steps_bind; [apply steps_up, no_lift|]. intros d. apply steps_bind; [apply steps_up, no_lift|]. intros ii. apply steps_bind; [apply steps_up, no_sys|]. intros [h|]; [|apply steps_ret].
    apply steps_bind; [apply steps_say|]. intros _. apply steps_up.
    apply (keeps_fill (logs nolist) no_refl no_trans cfuel E dev q p (no_read dev) h); intros; apply no_sys.
  Qed.
  Lemma steps_link owner i p : steps (recoverSymlinkV E dev q clobber owner i p).
  Proof.
    unfold recoverSymlinkV. apply steps_bind; [apply steps_up, no_sys|]. intros k. destruct (is_some k && negb clobber); [apply steps_bind; [apply steps_say|intros _; apply steps_ret]|].
    apply steps_bind; [apply steps_up; destruct (is_some k); [apply no_sys|apply keeps_ret; exact no_refl]|]. intros _. apply steps_bind; [apply steps_up, no_lift|]. intros [e|]; [|apply steps_ret].
    apply steps_bind; [apply steps_up; apply (keeps_target (logs nolist) no_refl no_trans dev q (no_read dev))|]. intros [t|]; [|apply steps_ret]. apply steps_bind; [apply steps_say|]. intros _.
    apply steps_bind; [apply steps_up, no_sys|]. intros r. apply steps_ret.
  Qed.
  Definition at_dir (rec : Z -> Z -> list byte -> list (Z * Z) -> V (list (Z * Z) * bool)) : Prop := forall o d p v ws ws' r,
    leads q dest0 (w_log (fst ws)) o d p -> rec o d p v ws = (ws', Ret r) -> lists_at ws ws'.
  Lemma items_at recV owner dir dest : at_dir recV ->
    forall l v ws ws' v', incl l (st_items (q_dirItems q owner dir)) -> In (EvList owner dir) (w_log (fst ws)) -> leads q dest0 (w_log (fst ws)) owner dir dest ->
    items_loopV recV cfuel E dev q clobber owner dest l v ws = (ws', Ret v') -> lists_at ws ws'.
  Proof.
    intros HR. induction l as [|[k di] l IH]; intros v ws ws' v' HI HL HD H; cbn [items_loopV] in H; [injection H as <- _; apply at_refl|].
    assert (H0 : In (k, di) (st_items (q_dirItems q owner dir))) by (apply HI; left; reflexivity). assert (HI' : incl l (st_items (q_dirItems q owner dir))) by (intros x Hx; apply HI; right; exact Hx).
    apply vbind_ret in H as (ws1 & a & H1 & H). apply up_lift_ret in H1 as [-> EC]. apply vbind_ret in H as (ws2 & v2 & H1 & H2).
    assert (G : lists_at ws ws2).
    { destruct a as [|o d p|i p|i p].
      - apply vbind_ret in H1 as (ws3 & x & E1 & H1). apply up_lift_ret in E1 as [-> ES]. apply vbind_ret in H1 as (ws4 & [] & E1 & H1). injection H1 as <- _.
        destruct x as [[p t]|]; [exact (steps_say _ _ _ _ E1)|injection E1 as <-; apply at_refl].
      - apply vbind_ret in H1 as (ws3 & r & E1 & H1). apply vbind_ret in H1 as (ws4 & [] & E2 & H1). injection H1 as <- _.
        refine (at_trans _ _ _ (HR _ _ _ _ _ _ _ _ E1) (steps_up _ (no_warn _ _ _) _ _ _ E2)).
        unfold classify in EC. destruct (DirItem_Name di) as [n| |] eqn:EN; cbn [rbind] in EC; try discriminate. destruct (skip_name n) eqn:ES; [discriminate|].
        unfold DirItem_IsDir, DirItem_IsSubvolume in EC. destruct (DirItem_Type di) as [ty| |] eqn:ET; cbn [rbind] in EC; try discriminate.
        destruct (DirItem_Location di) as [loc| |] eqn:EL; cbn [rbind] in EC; [|destruct (ty =? FtDir); cbn [rbind] in EC; discriminate|destruct (ty =? FtDir); cbn [rbind] in EC; discriminate].
        change RootItemKey with 132 in EC. unfold FtDir, FtRegFile, FtSymlink in EC. destruct (Z.eqb_spec (KType loc) 132) as [e|e].
        + assert (X : ADir (ObjectID loc) FirstFreeObjectID (Join dest n) = ADir o d p) by (destruct (ty =? 2); cbn [rbind] in EC; injection EC as <- <- <-; reflexivity). injection X as <- <- <-.
          apply (lead_entry _ _ _ owner dir dest k di n loc _ _ HD HL H0 EN ES EL). left. auto.
        + destruct (Z.eqb_spec ty 2) as [e2|e2]; cbn [rbind] in EC; [|destruct (ty =? 1); [discriminate|destruct (ty =? 7); discriminate]]. injection EC as <- <- <-.
          apply (lead_entry _ _ _ owner dir dest k di n loc _ _ HD HL H0 EN ES EL). right. rewrite ET, e2. auto.
      - apply vbind_ret in H1 as (ws3 & r & E1 & H1). apply vbind_ret in H1 as (ws4 & [] & E2 & H1). injection H1 as <- _. exact (at_trans _ _ _ (steps_file _ _ _ _ _ _ E1) (steps_up _ (no_warn _ _ _) _ _ _ E2)).
      - apply vbind_ret in H1 as (ws3 & r & E1 & H1). apply vbind_ret in H1 as (ws4 & [] & E2 & H1). injection H1 as <- _. exact (at_trans _ _ _ (steps_link _ _ _ _ _ _ E1) (steps_up _ (no_warn _ _ _) _ _ _ E2)). }
    destruct G as [G L]. apply (at_trans _ ws2 _ (conj G L)). exact (IH v2 ws2 ws' v' HI' (grows_in_log _ _ _ G HL) (leads_more _ _ _ _ _ G HD) H2).
  Qed.
  Lemma dir_at_path fuel : at_dir (recoverDirV fuel cfuel E dev q clobber).
  Proof.
    induction fuel as [|fuel IH]; intros owner dir dest v ws ws' r HD H; cbn [recoverDirV] in H; [discriminate|].
    destruct (key_in (owner, dir) v); [injection H as <- _; apply at_refl|].
    apply vbind_ret in H as (ws1 & ok & H1 & H). pose proof (steps_up _ (no_mk E dest) _ _ _ H1) as G1. destruct ok; cbn [negb] in H; [|injection H as <- _; exact G1].
    apply (at_trans _ _ _ G1). pose proof (leads_more _ _ _ _ _ (proj1 G1) HD) as HD1. clear G1 H1 HD.
    apply vbind_ret in H as (ws2 & [] & H2 & H). apply vbind_ret in H as (ws3 & [] & H3 & H). apply up_lift_ret in H3 as [-> _]. apply vbind_ret in H as (ws4 & v' & H4 & H). injection H as <- _.
    destruct ws1 as [w s]. unfold up, emit in H2. injection H2 as <-.
    assert (G2 : grows (w, s) (mkWorld (w_fs w) (w_ops w) (EvList owner dir :: w_log w), s)) by (split; [exists [EvList owner dir]|exists []]; reflexivity).
    assert (HL : In (EvList owner dir) (w_log (fst (mkWorld (w_fs w) (w_ops w) (EvList owner dir :: w_log w), s)))) by (left; reflexivity).
    destruct (items_at _ owner dir dest IH _ _ _ _ _ (incl_refl _) HL (leads_more _ _ _ _ _ G2 HD1) H4) as [G4 L4].
    destruct (all_items cfuel E dev q clobber _ owner dest (all_dir cfuel E dev q clobber fuel) _ _ _ _ _ H4) as [_ T].
    split; [exact (grows_trans _ _ _ G2 G4)|]. intros o d HI. destruct (L4 o d HI) as [[X|X]|X]; [|left; exact X|right; exact X].
    injection X as <- <-. right. exists dest. split; [exact (leads_more _ _ _ _ _ (grows_trans _ _ _ G2 G4) HD1)|exact T].
  Qed.
  Lemma subvols_at fuel : forall l fin v ws ws' v', incl l (st_items (q_subvolumes q)) -> subvols_loopV fuel cfuel E dev q clobber dest0 l fin v ws = (ws', Ret v') -> lists_at ws ws'.
  Proof.
    induction l as [|[k d] l IH]; intros fin v ws ws' v' HI H; cbn [subvols_loopV] in H; [apply vbind_ret in H as (ws1 & [] & H1 & H); apply up_lift_ret in H1 as [-> _]; injection H as <- _; apply at_refl|].
    assert (H0 : In (k, d) (st_items (q_subvolumes q))) by (apply HI; left; reflexivity). apply vbind_ret in H as (ws1 & v1 & H1 & H).
    refine (at_trans _ _ _ _ (IH _ _ _ _ _ ltac:(intros x Hx; apply HI; right; exact Hx) H)). destruct (key_in _ v); [injection H1 as <- _; apply at_refl|].
    apply vbind_ret in H1 as (ws2 & [] & H2 & H1). apply vbind_ret in H1 as (ws3 & r & H3 & H1). apply vbind_ret in H1 as (ws4 & [] & H4 & H1). injection H1 as <- _.
    refine (at_trans _ _ _ (steps_say _ _ _ _ H2) (at_trans _ _ _ (dir_at_path fuel _ _ _ _ _ _ _ _ H3) (steps_up _ (no_warn _ _ _) _ _ _ H4))).
    exact (lead_sub q dest0 _ k d _ H0 eq_refl).
  Qed.
End Where.
(** In a run that ends, a directory that was read has a destination path, given by the entries that lead to it, and every file, link and
    special entry in it with a name recover accepts is told of or warned about at that path. *)
Theorem C106_where : forall fuel cfuel E dev q clobber dest w w' said a, (forall o d, ~ In (EvList o d) (w_log w)) ->
  doRecoverFilesV fuel cfuel E dev q clobber dest (w, []) = ((w', said), Ret a) ->
  forall o d, In (EvList o d) (w_log w') ->
  exists dst, leads q dest (w_log w') o d dst /\ forall k di, In (k, di) (st_items (q_dirItems q o d)) -> entry_told said (w_log w') dst di.
Proof.
  intros fuel cfuel E dev q clobber dest w w' sd a H0 H o d HI.
  assert (G : lists_at q dest (w, []) (w', sd)).
  { unfold doRecoverFilesV in H. apply vbind_ret in H as (ws1 & ok & H1 & H). apply (at_trans q dest _ _ _ (steps_up q dest _ (no_mk E dest) _ _ _ H1)). destruct ok; cbn [negb] in H.
    - apply vbind_ret in H as (ws2 & [] & H2 & H). apply vbind_ret in H as (ws3 & r & H3 & H). apply vbind_ret in H as (ws4 & [] & H4 & H). apply vbind_ret in H as (ws5 & v' & H5 & H). injection H as -> _.
      apply (at_trans q dest _ _ _ (steps_say q dest _ _ _ _ H2)). apply (at_trans q dest _ _ _ (dir_at_path cfuel E dev q clobber dest fuel _ _ _ _ _ _ _ (lead_root _ _ _) H3)).
      apply (at_trans q dest _ _ _ (steps_up q dest _ (no_warn _ _ _) _ _ _ H4)). exact (subvols_at cfuel E dev q clobber dest fuel _ _ _ _ _ _ (incl_refl _) H5).
    - apply vbind_ret in H as (ws2 & [] & H2 & H). injection H as -> _. exact (steps_up q dest _ (no_warn false WDir dest) _ _ _ H2). }
  destruct (proj2 G o d HI) as [X|X]; [destruct (H0 o d X)|exact X].
Qed.

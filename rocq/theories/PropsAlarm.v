(** Property C80: recover raises no false alarms. *)
From Verif Require Import Go GoProofs Layout KeyFmt Bolt Store Fs Recover RecoverProofs SpecFs SpecContent PathProofs PropsRecoverPaths FsProofs PropsRecoverSafe PropsRecoverDfs PropsRecoverFile PropsRecoverErr.
From Coq Require Import ZifyBool ZifyNat ZifyN.
Ltac Zify.zify_post_hook ::= Z.div_mod_to_equations.

(** ** specification *)
(** something went wrong: a file could not be opened, written or cut to its size, a link not created, or the
    device reported an error (or its end) *)
Definition trouble (e : event) : Prop :=
  match e with
  | EvOp OOpen _ false | EvOp OWrite _ false | EvOp OTrunc _ false | EvOp OSymlink _ false | EvRead _ _ _ (Some _) => True
  | _ => False
  end.
(** the steps taken for file or link [p] after looking whether it exists *)
Definition step_for (p : list byte) (e : event) : Prop :=
  match e with
  | EvOp k p' _ | EvDead k p' => p' = p /\ k <> OStat /\ k <> OLstat
  | EvRead _ _ _ _ => True
  | _ => False
  end.
(** the index has no target for link [i] of tree [o]: no extent, or one that is no data *)
Definition no_target (q : queries) (o i : Z) : Prop :=
  q_extent0 q o i = Ok None \/ exists e t, q_extent0 q o i = Ok (Some e) /\ FileExtentItem_Type e = Ok t /\ t <> 0 /\ FileExtentItem_DiskByteNr e = Ok 0.
(** [p] ends in the name of an entry of the index that is link [i] of tree [o] *)
Definition entry_of (q : queries) (o i : Z) (p : list byte) : Prop :=
  exists d k di n dest loc, In (k, di) (st_items (q_dirItems q o d)) /\ DirItem_Name di = Ok n /\ p = Join dest n /\
    DirItem_Type di = Ok FtSymlink /\ DirItem_Location di = Ok loc /\ ObjectID loc = i.
(** What led to a warning about [p]; [l] is the log when the warning is printed, newest first.
    Directory: an attempt to create it has just failed.  File: since recover looked whether it exists, it took only steps
    for this file, and there was trouble.  Link: the same, or the index has no target. *)
Definition cause (E : env) (q : queries) (k : wkind) (p : list byte) (l : list event) : Prop :=
  match k with
  | WDir => exists w1 w2, MkdirAll E p w1 = (w2, Ret false) /\ w_log w2 = l
  | WFile => exists evs b l0, l = evs ++ EvOp OStat p b :: l0 /\ Forall (step_for p) evs /\ Exists trouble evs
  | WLink => exists evs b l0, l = evs ++ EvOp OLstat p b :: l0 /\ Forall (step_for p) evs /\ (Exists trouble evs \/ exists o i, entry_of q o i p /\ no_target q o i)
  end.
(** ** proofs *)
(** a step that leaves trouble in the log if its result is [bad] *)
Definition fw {A} (p : list byte) (bad : A -> Prop) (m : M A) : Prop := forall w w' a, m w = (w', Ret a) ->
  exists evs, w_log w' = evs ++ w_log w /\ Forall (step_for p) evs /\ (bad a -> Exists trouble evs).
Lemma fw_ret {A} p (bad : A -> Prop) x : ~ bad x -> fw p bad (ret x).
Proof. intros H w w' a HR. apply ret_inv in HR as [-> ->]. exists []. split; [reflexivity|]. split; [constructor|]. intros HB. destruct (H HB). Qed.
Lemma fw_bind {A B} p (ba : A -> Prop) (bb : B -> Prop) (m : M A) (f : A -> M B) : fw p ba m -> (forall a, fw p (fun b => bb b /\ ~ ba a) (f a)) -> (forall a, ba a \/ ~ ba a) -> fw p bb (bind m f).
Proof.
  intros Hm Hf Hd w w' b H. apply bind_ret_inv in H as (w1 & a & HA & H). destruct (Hm _ _ _ HA) as (e1 & E1 & F1 & T1). destruct (Hf a _ _ _ H) as (e2 & E2 & F2 & T2). exists (e2 ++ e1). rewrite E2, E1, app_assoc. split; [reflexivity|]. split; [apply Forall_app; auto|].
  intros HB. apply Exists_app. destruct (Hd a) as [D|D]; [right; auto|left; auto].
Qed.
Lemma fw_weaken {A} p (b b' : A -> Prop) m : (forall a, b' a -> b a) -> fw p b m -> fw p b' m.
Proof. intros H Hm w w' a HR. destruct (Hm _ _ _ HR) as (evs & E1 & F & T). exists evs. auto. Qed.
Lemma fw_lift {A B} p (bb : B -> Prop) (r : Res A) (f : A -> M B) : (forall a, fw p bb (f a)) -> fw p bb (bind (lift r) f).
Proof. intros Hf w w' b H. apply bind_ret_inv in H as (w1 & a & HA & H). apply lift_ret_inv in HA as [_ ->]. exact (Hf a _ _ _ H). Qed.
Lemma fw_sys {A} E k p (eff : fs -> fs * option A) part : match k with OOpen | OWrite | OTrunc | OSymlink => True | _ => False end -> fw p (fun r => r = None) (syscall E k p eff part).
Proof.
  intros Hk w w' a H. unfold syscall in H. assert (ST : forall b, step_for p (EvOp k p b)) by (intros b; split; [reflexivity|]; destruct k; try destruct Hk; split; discriminate).
  assert (TR : trouble (EvOp k p false)) by (destruct k; try destruct Hk; exact Logic.I).
  destruct (e_faults E (w_ops w) k); [destruct (eff (w_fs w)) as [F r]| |discriminate]; injection H as <- <-; eexists [_]; (split; [reflexivity|]); (split; [constructor; [apply ST|constructor]|]).
  - intros ->. left. exact TR.
  - intros _. left. exact TR.
Qed.
Lemma fw_quiet {A} E p (eff : fs -> fs * option A) part : fw p (fun _ => False) (syscall E ORemove p eff part).
Proof.
  intros w w' a H. unfold syscall in H. destruct (e_faults E (w_ops w) ORemove); [destruct (eff (w_fs w)) as [F r]| |discriminate]; injection H as <- <-; eexists [_]; (split; [reflexivity|]); (split; [constructor; [split; [reflexivity|split; discriminate]|constructor]|intros []]).
Qed.
Lemma fw_read p dev n off : fw p (fun r : list byte * option ioerr => snd r <> None) (devRead dev n off).
Proof.
  intros w w' a H. unfold devRead in H. destruct (dev n off) as [d e]. injection H as <- <-. eexists [_]. split; [reflexivity|]. split; [constructor; [exact Logic.I|constructor]|]. cbn [snd]. destruct e; [intros _; left; exact Logic.I|congruence].
Qed.
Definition fbad (f : flow) : Prop := f = Returned false.
Lemma none_dec {A} (r : option A) : r = None \/ r <> None. Proof. destruct r; [right; discriminate|left; reflexivity]. Qed.
Lemma fw_copy p E dev h n src fo : forall fuel c, fw p fbad (copy_loop fuel E dev h p n src fo c).
Proof.
  induction fuel as [|fuel IH]; intros c; cbn [copy_loop]; [intros w w' a H; discriminate|]. destruct (c <? n); [|apply fw_ret; discriminate]. cbv zeta.
  eapply fw_bind; [apply fw_read| |intros a; destruct (none_dec (snd a)); [right; congruence|left; assumption]]. intros [d err]. cbn [snd].
  eapply (fw_bind p (fun ok => ok = false)).
  - destruct (0 <? zlen d); [|apply fw_ret; discriminate]. eapply fw_bind; [apply fw_sys; exact Logic.I| |apply none_dec]. intros r. apply fw_ret. destruct r; cbn; intros [HX HY]; [discriminate|congruence].
  - intros ok. destruct ok; cbn [negb]; [|apply fw_ret; intros [_ H]; congruence]. destruct err as [[]|]; [| |eapply fw_weaken; [|apply IH]; tauto].
    + match goal with |- context [if ?b then _ else _] => destruct b end; apply fw_ret; unfold fbad; intros [[H1 H2] H3]; [apply H2; discriminate|discriminate].
    + apply fw_ret. unfold fbad. intros [[H1 _] _]. discriminate.
  - intros []; [right; discriminate|left; reflexivity].
Qed.
Lemma fw_inline p E h ii fo e : fw p fbad (inline_extent E h p ii fo e).
Proof.
  unfold inline_extent. apply fw_lift. intros d. cbv zeta. match goal with |- context [if ?b then _ else ret Go_on] => destruct b end; [|apply fw_ret; discriminate]. apply fw_lift. intros s.
  eapply fw_bind; [apply fw_sys; exact Logic.I| |apply none_dec]. intros r. apply fw_ret. unfold fbad. destruct r; cbn; intros [HX HY]; [discriminate|congruence].
Qed.
Lemma fw_disk p cfuel E dev q h fo e : fw p fbad (disk_extent cfuel E dev q h p fo e).
Proof.
  unfold disk_extent. apply fw_lift. intros n. apply fw_lift. intros nr. destruct (nr =? 0).
  - apply fw_lift. intros z. eapply fw_bind; [apply fw_sys; exact Logic.I| |apply none_dec]. intros r. apply fw_ret. unfold fbad. destruct r; cbn; intros [HX HY]; [discriminate|congruence].
  - apply fw_lift. intros [id ph]. apply fw_lift. intros o. apply fw_copy.
Qed.
Lemma fbad_dec f : fbad f \/ ~ fbad f. Proof. unfold fbad. destruct f as [|[]]; [right; discriminate|right; discriminate|left; reflexivity]. Qed.
Lemma fw_extents p cfuel E dev q h ii fin : forall l, fw p fbad (extents_loop cfuel E dev q h p ii l fin).
Proof.
  induction l as [|[k e] l IH]; cbn [extents_loop]; [apply fw_lift; intros u; apply fw_ret; discriminate|]. cbv zeta. apply fw_lift. intros inl.
  eapply (fw_bind p fbad); [destruct inl; [apply fw_inline|apply fw_disk]| |apply fbad_dec]. intros f. destruct f as [|ok]; [eapply fw_weaken; [|exact IH]; tauto|apply fw_ret; tauto].
Qed.
Lemma file_cause cfuel E dev q cl o i p w w' : recoverFile cfuel E dev q cl o i p w = (w', Ret false) -> cause E q WFile p (w_log w').
Proof.
  intros H. unfold recoverFile in H. apply bind_ret_inv in H as (w1 & k & HS & H). destruct (is_some k && negb cl); [apply ret_inv in H as [H _]; discriminate|].
  assert (HL : exists b, w_log w1 = EvOp OStat p b :: w_log w) by (unfold Stat, syscall in HS; destruct (e_faults E (w_ops w) OStat); [destruct (sys_stat _ _ _ _)| |discriminate]; injection HS as <- _; eexists; reflexivity).
  destruct HL as [b HL]. match type of H with ?m w1 = _ => assert (HF : fw p (fun ok => ok = false) m) end.
  { apply fw_lift. intros it. apply fw_lift. intros ii. eapply fw_bind; [apply fw_sys; exact Logic.I| |apply none_dec]. intros h. destruct h as [h|]; [|apply fw_ret; tauto]. cbv zeta. destruct (st_items (q_extents q o i)) as [|x l].
    - apply fw_lift. intros u. eapply (fw_bind p (fun _ => False)); [destruct ii as [s|]; [eapply fw_weaken; [|apply fw_sys; exact Logic.I]; intros a []|apply fw_ret; tauto]| |tauto]. intros r. apply fw_ret. intros [[H1 _] _]. discriminate.
    - eapply (fw_bind p fbad); [apply fw_extents| |apply fbad_dec]. intros f. destruct f as [|ok].
      + destruct ii as [s|]; [|apply fw_ret; intros [[H1 _] _]; discriminate]. eapply fw_bind; [apply fw_sys; exact Logic.I| |apply none_dec]. intros r. apply fw_ret. destruct r; cbn; intros [[[H1 _] _] HY]; [discriminate|congruence].
      + apply fw_ret. unfold fbad. intros [[-> _] HY]. congruence. }
  destruct (HF _ _ _ H) as (evs & E1 & F1 & T1). exists evs, b, (w_log w). rewrite E1, HL. auto.
Qed.
Lemma no_target_dec q o i : no_target q o i \/ ~ no_target q o i.
Proof.
  unfold no_target. destruct (q_extent0 q o i) as [[e|]| |]; [|left; left; reflexivity|right; intros [H|(e & t & H & _)]; discriminate..].
  destruct (FileExtentItem_Type e) as [t| |] eqn:Et; [|right; intros [H|(e' & t' & H & H1 & _)]; [discriminate|injection H as <-; rewrite Et in H1; discriminate]..].
  destruct (Z.eq_dec t 0) as [->|Ht]; [right; intros [H|(e' & t' & H & H1 & H2 & _)]; [discriminate|injection H as <-; rewrite Et in H1; congruence]|].
  destruct (FileExtentItem_DiskByteNr e) as [n| |] eqn:En; [|right; intros [H|(e' & t' & H & _ & _ & H1)]; [discriminate|injection H as <-; rewrite En in H1; discriminate]..].
  destruct (Z.eq_dec n 0) as [->|Hn]; [left; right; exists e, t; auto|right; intros [H|(e' & t' & H & _ & _ & H1)]; [discriminate|injection H as <-; rewrite En in H1; congruence]].
Qed.
Lemma fw_lift' {A B} p (bb : B -> Prop) (r : Res A) (f : A -> M B) : (forall a, r = Ok a -> fw p bb (f a)) -> fw p bb (bind (lift r) f).
Proof. intros Hf w w' b H. apply bind_ret_inv in H as (w1 & a & HA & H). apply lift_ret_inv in HA as [HA ->]. exact (Hf a HA _ _ _ H). Qed.
Lemma link_cause E dev q cl o i p w w' : entry_of q o i p -> recoverSymlink E dev q cl o i p w = (w', Ret false) -> cause E q WLink p (w_log w').
Proof.
  intros HEN H. unfold recoverSymlink in H. apply bind_ret_inv in H as (w1 & k & HS & H). destruct (is_some k && negb cl); [apply ret_inv in H as [H _]; discriminate|].
  assert (HL : exists b, w_log w1 = EvOp OLstat p b :: w_log w) by (unfold Lstat, syscall in HS; destruct (e_faults E (w_ops w) OLstat); [destruct (sys_stat _ _ _ _)| |discriminate]; injection HS as <- _; eexists; reflexivity).
  destruct HL as [b HL]. match type of H with ?m w1 = _ => assert (HF : forall X : Prop, X \/ ~ X -> (X -> ~ no_target q o i) -> fw p (fun ok => ok = false /\ X) m) end.
  { intros X HD HX. eapply (fw_bind p (fun _ => False)); [destruct (is_some k); [apply fw_quiet|apply fw_ret; tauto]| |tauto]. intros r0. apply fw_lift'. intros e HA.
    destruct e as [e|]; [|apply fw_ret; intros [[_ HN] _]; apply (HX HN); left; exact HA].
    eapply (fw_bind p (fun t => t = None /\ X)).
    - unfold link_target. apply fw_lift'. intros inl HI. destruct inl; [apply fw_lift; intros t; apply fw_ret; intros [H1 _]; discriminate|].
      apply fw_lift'. intros nr HN. destruct (0 <? nr) eqn:En.
      + apply fw_lift. intros [id ph]. apply fw_lift. intros eo. apply fw_lift. intros n. apply fw_lift. intros buf. eapply fw_bind; [apply fw_read| |intros a; destruct (none_dec (snd a)); [right; congruence|left; assumption]].
        intros [d err]. cbn [snd]. destruct err; apply fw_ret; intros [[H1 _] H2]; [apply H2; discriminate|discriminate].
      + apply fw_ret. intros [_ Hx]. apply (HX Hx). right. unfold FileExtentItem_IsInline in HI. destruct (FileExtentItem_Type e) as [t| |] eqn:ET; cbn [rbind] in HI; try discriminate. exists e, t. split; [exact HA|]. split; [exact ET|]. split; [intros ->; discriminate|].
        rewrite HN. f_equal. assert (0 <= nr); [|lia]. unfold FileExtentItem_DiskByteNr in HN. exact (proj1 (PropsRecoverDfs.at64_range _ _ _ HN)).
    - intros t. destruct t as [t|]; [|apply fw_ret; tauto]. eapply fw_bind; [apply fw_sys; exact Logic.I| |apply none_dec]. intros r. apply fw_ret. destruct r; cbn; intros [[[[H1 _] _] _] HY]; [discriminate|congruence].
    - intros t. destruct t; [right; intros [HY _]; discriminate|]. destruct HD; [left; auto|right; tauto]. }
  destruct (no_target_dec q o i) as [HN|HN].
  - destruct (HF False (or_intror (fun x => x)) ltac:(intros []) _ _ _ H) as (evs & E1 & F1 & _). exists evs, b, (w_log w). rewrite E1, HL. split; [reflexivity|]. split; [exact F1|]. right. exists o, i. auto.
  - destruct (HF True (or_introl Logic.I) (fun _ => HN) _ _ _ H) as (evs & E1 & F1 & T1). exists evs, b, (w_log w). rewrite E1, HL. split; [reflexivity|]. split; [exact F1|]. left. apply T1. auto.
Qed.

(** ** the whole command *)
Section Whole.
  Variables (cfuel : nat) (E : env) (dev : readerAt) (q : queries) (cl : bool).
  (** every new warning has a cause *)
  Definition caused (w w' : world) : Prop := exists evs, w_log w' = evs ++ w_log w /\ forall a k p b, evs = a ++ EvWarn k p :: b -> cause E q k p (b ++ w_log w).
  Lemma caused_refl w : caused w w.
  Proof. exists []. split; [reflexivity|]. intros a k p b H. destruct a; discriminate. Qed.
  Lemma caused_trans a b c : caused a b -> caused b c -> caused a c.
  Proof.
    intros (e1 & E1 & C1) (e2 & E2 & C2). exists (e2 ++ e1). rewrite E2, E1, app_assoc. split; [reflexivity|]. intros x k p y H. apply app_eq_app in H as (l & [[-> H]|[-> H]]).
    - destruct l as [|z l]; cbn [app] in H; [exact (C1 [] k p y (eq_sym H))|]. injection H as <- ->. specialize (C2 x k p l eq_refl). rewrite E1, app_assoc in C2. exact C2.
    - exact (C1 l k p y H).
  Qed.
  Lemma caused_quiet w w' : logs (fun e => match e with EvWarn _ _ => False | _ => True end) w w' -> caused w w'.
  Proof. intros (evs & E1 & F). exists evs. split; [exact E1|]. intros a k p b ->. apply Forall_app in F as [_ F]. inversion F. contradiction. Qed.
  Lemma caused_warn k p w : cause E q k p (w_log w) -> caused w (mkWorld (w_fs w) (w_ops w) (EvWarn k p :: w_log w)).
  Proof.
    intros H. exists [EvWarn k p]. split; [reflexivity|]. intros a k' p' b HE. destruct a as [|x a]; [|destruct a; discriminate]. cbn [app] in HE. injection HE as <- <- <-. exact H.
  Qed.
  Notation K := (keeps caused).
  Lemma k_bind {A B} (m : M A) (f : A -> M B) : K m -> (forall a, K (f a)) -> K (bind m f).
  Proof. apply keeps_bind. exact caused_trans. Qed.
  Lemma k_ret {A} (x : A) : K (ret x). Proof. apply keeps_ret. exact caused_refl. Qed.
  Lemma k_lift {A} (r : Res A) : K (lift r). Proof. apply keeps_lift. exact caused_refl. Qed.
  Lemma k_file o i p : K (recoverFile cfuel E dev q cl o i p).
  Proof.
    intros w w' r H. apply caused_quiet. revert w w' r H. change (keeps (logs (fun e => match e with EvWarn _ _ => False | _ => True end)) (recoverFile cfuel E dev q cl o i p)).
    apply keeps_file; [apply logs_refl|apply logs_trans|intros; apply logs_read; intros; exact Logic.I| | | |]; intros; apply logs_syscall; intros; exact Logic.I.
  Qed.
  Lemma k_link o i p : K (recoverSymlink E dev q cl o i p).
  Proof.
    intros w w' r H. apply caused_quiet. revert w w' r H. change (keeps (logs (fun e => match e with EvWarn _ _ => False | _ => True end)) (recoverSymlink E dev q cl o i p)).
    apply keeps_symlink; [apply logs_refl|apply logs_trans|intros; apply logs_read; intros; exact Logic.I| | |]; intros; apply logs_syscall; intros; exact Logic.I.
  Qed.
  Lemma k_mkall s : K (MkdirAll E s).
  Proof.
    intros w w' r H. apply caused_quiet. revert w w' r H. change (keeps (logs (fun e => match e with EvWarn _ _ => False | _ => True end)) (MkdirAll E s)).
    apply (keeps_mkall (logs _) (logs_refl _) (logs_trans _) E (fun _ => True)); auto; intros; apply logs_syscall; intros; exact Logic.I.
  Qed.
  Lemma k_emit e : (forall k p, e <> EvWarn k p) -> K (emit e).
  Proof. intros He w w' r H. apply caused_quiet. unfold emit in H. injection H as <- _. exists [e]. split; [reflexivity|]. constructor; [|constructor]. destruct e; auto. destruct (He what path eq_refl). Qed.
  (** an operation whose failure is a cause, then the warning *)
  Lemma k_warned {A} k p (m : M A) (okof : A -> bool) {B} (f : A -> M B) :
    K m -> (forall w w' a, m w = (w', Ret a) -> okof a = false -> cause E q k p (w_log w')) -> (forall a, K (f a)) ->
    K (bind m (fun a => _ <~ (if okof a then ret tt else emit (EvWarn k p)) ;; f a)).
  Proof.
    intros Hm Hc Hf w w' o H. unfold bind in H at 1. destruct (m w) as [w1 o1] eqn:EM. pose proof (Hm _ _ _ EM) as R1. destruct o1 as [a| | |]; [|injection H as <- _; exact R1..].
    specialize (Hc _ _ _ EM). eapply caused_trans; [exact R1|]. destruct (okof a) eqn:Ea.
    - revert H. apply (k_bind (ret tt)); [apply k_ret|intros _; apply Hf].
    - unfold bind, emit in H. eapply caused_trans; [apply (caused_warn k p); apply Hc; reflexivity|]. exact (Hf a _ _ _ H).
  Qed.
  Lemma dir_cause fuel o d dest v w w' v' : recoverDir fuel cfuel E dev q cl o d dest v w = (w', Ret (v', false)) -> cause E q WDir dest (w_log w').
  Proof.
    intros H. destruct fuel as [|fuel]; [discriminate|]. cbn [recoverDir] in H. destruct (key_in (o, d) v); [apply ret_inv in H as [H _]; discriminate|]. cbv zeta in H.
    apply bind_ret_inv in H as (w1 & ok & HM & H). destruct ok; cbn [negb] in H.
    - apply bind_ret_inv in H as (w2 & u & _ & H). apply bind_ret_inv in H as (w3 & u' & _ & H). apply bind_ret_inv in H as (w4 & v2 & _ & H). apply ret_inv in H as [H _]. discriminate.
    - apply ret_inv in H as [_ ->]. exists w, w1. auto.
  Qed.
  Lemma classify_link o d k di dest i p : In (k, di) (st_items (q_dirItems q o d)) -> classify o dest di = Ok (ALink i p) -> entry_of q o i p.
  Proof.
    intros HI H. unfold classify in H. destruct (DirItem_Name di) as [n| |] eqn:EN; cbn [rbind] in H; try discriminate. destruct (skip_name n); [discriminate|].
    destruct (DirItem_IsDir di) as [b| |]; cbn [rbind] in H; try discriminate.
    match type of H with rbind ?m _ = _ => destruct m as [s| |] end; cbn [rbind] in H; try discriminate. destruct s.
    - destruct (DirItem_Location di) as [loc| |]; cbn [rbind] in H; try discriminate. destruct (DirItem_IsSubvolume di) as [v| |]; cbn [rbind] in H; try discriminate. destruct v; discriminate.
    - destruct (DirItem_Type di) as [t| |] eqn:ET; cbn [rbind] in H; try discriminate. destruct (t =? FtRegFile); [destruct (DirItem_Location di); cbn [rbind] in H; discriminate|]. destruct (t =? FtSymlink) eqn:ES; [|discriminate].
      destruct (DirItem_Location di) as [loc| |] eqn:EL; cbn [rbind] in H; try discriminate. injection H as <- <-. exists d, k, di, n, dest, loc. apply Z.eqb_eq in ES. rewrite ET, ES. auto 10.
  Qed.
  Lemma k_lift_bind {A B} (r : Res A) (f : A -> M B) : (forall a, r = Ok a -> K (f a)) -> K (bind (lift r) f).
  Proof. intros Hf w w' o H. unfold bind, lift in H. destruct r as [a| |] eqn:ER; [exact (Hf a eq_refl _ _ _ H)|injection H as <- _; apply caused_refl..]. Qed.
  Lemma k_items rec owner dir dest : (forall o d p v, K (rec o d p v)) -> (forall o d p v w w' v', rec o d p v w = (w', Ret (v', false)) -> cause E q WDir p (w_log w')) -> forall l v, (forall x, In x l -> In x (st_items (q_dirItems q owner dir))) -> K (items_loop rec cfuel E dev q cl owner dest l v).
  Proof.
    intros Hr Hc. induction l as [|[k di] l IH]; intros v HL; cbn [items_loop]; [apply k_ret|]. apply k_lift_bind. intros a HA. apply k_bind; [|intros v'; apply IH; intros x Hx; apply HL; right; exact Hx].
    destruct a as [|o d p|i p|i p]; [apply k_ret| | |].
    - intros w w' r H. refine (k_warned WDir p (rec o d p v) snd (fun a => ret (fst a)) (Hr o d p v) _ _ w w' r _); [intros w1 w2 [v2 ok] HR Hok; cbn [snd] in Hok; subst ok; exact (Hc _ _ _ _ _ _ _ HR)|intros a'; apply k_ret|].
      rewrite <- H. unfold bind. destruct (rec o d p v w) as [w1 [[v2 ok]| | |]]; reflexivity.
    - apply (k_warned WFile p _ (fun b : bool => b)); [apply k_file|intros w w' ok HR ->; exact (file_cause _ _ _ _ _ _ _ _ _ _ HR)|intros a; apply k_ret].
    - apply (k_warned WLink p _ (fun b : bool => b)); [apply k_link|intros w w' ok HR ->; exact (link_cause _ _ _ _ _ _ _ _ _ (classify_link _ _ _ _ _ _ _ (HL _ (or_introl eq_refl)) HA) HR)|intros a; apply k_ret].
  Qed.
  Lemma k_dir : forall fuel o d dest v, K (recoverDir fuel cfuel E dev q cl o d dest v).
  Proof.
    induction fuel as [|fuel IH]; intros o d dest v; cbn [recoverDir]; [apply keeps_timeout; exact caused_refl|]. destruct (key_in (o, d) v); [apply k_ret|]. cbv zeta.
    apply k_bind; [apply k_mkall|]. intros ok. destruct ok; cbn [negb]; [|apply k_ret]. apply k_bind; [apply k_emit; discriminate|]. intros _. apply k_bind; [apply k_lift|]. intros _. apply k_bind; [|intros v'; apply k_ret].
    apply (k_items _ _ d); [exact IH|intros o' d' p' v0 w w' v' HR; exact (dir_cause _ _ _ _ _ _ _ _ HR)|auto].
  Qed.
  Lemma k_subvols fuel dest fin : forall l v, K (subvols_loop fuel cfuel E dev q cl dest l fin v).
  Proof.
    induction l as [|[k di] l IH]; intros v; cbn [subvols_loop]; [apply k_bind; [apply k_lift|intros _; apply k_ret]|]. cbv zeta. apply k_bind; [|intros v'; apply IH]. destruct (key_in _ v); [apply k_ret|].
    set (o := ObjectID (ik_Key k)). intros w w' r H. refine (k_warned WDir (subvol_dest dest o) (recoverDir fuel cfuel E dev q cl o FirstFreeObjectID (subvol_dest dest o) v) snd (fun a => ret (fst a)) (k_dir _ _ _ _ _) _ _ w w' r _).
    - intros w1 w2 [v2 ok] HR Hok. cbn [snd] in Hok. subst ok. exact (dir_cause _ _ _ _ _ _ _ _ HR).
    - intros a. apply k_ret.
    - rewrite <- H. unfold bind. destruct (recoverDir fuel cfuel E dev q cl o FirstFreeObjectID (subvol_dest dest o) v w) as [w1 [[v2 ok]| | |]]; reflexivity.
  Qed.
  Lemma k_recover fuel dest : K (doRecoverFiles fuel cfuel E dev q cl dest).
  Proof.
    intros w w' r H. unfold doRecoverFiles in H. unfold bind in H at 1. destruct (MkdirAll E dest w) as [w1 o1] eqn:EM. pose proof (k_mkall _ _ _ _ EM) as R1. destruct o1 as [ok| | |]; [|injection H as <- _; exact R1..].
    eapply caused_trans; [exact R1|]. destruct ok; cbn [negb] in H.
    - refine (k_warned WDir dest (recoverDir fuel cfuel E dev q cl FSTreeObjectID FirstFreeObjectID dest []) snd (fun a => v <~ subvols_loop fuel cfuel E dev q cl dest (st_items (q_subvolumes q)) (st_end (q_subvolumes q)) (fst a) ;; ret (true, v)) (k_dir _ _ _ _ _) _ _ w1 w' r _).
      + intros wa wb [v2 ok] HR Hok. cbn [snd] in Hok. subst ok. exact (dir_cause _ _ _ _ _ _ _ _ HR).
      + intros a. apply k_bind; [apply k_subvols|intros v; apply k_ret].
      + rewrite <- H. unfold bind. destruct (recoverDir fuel cfuel E dev q cl FSTreeObjectID FirstFreeObjectID dest [] w1) as [w2 [[v2 ok]| | |]]; reflexivity.
    - unfold bind, emit, ret in H. injection H as <- _. apply (caused_warn WDir dest). exists w, w1. auto.
  Qed.
End Whole.
(** C80.  In every run of recover - whatever the index says, whatever fails, and however the run ends - every
    warning has a cause. *)
Theorem C80_no_false_alarm : forall fuel cfuel E dev q cl dest w w' r a k p l,
  doRecoverFiles fuel cfuel E dev q cl dest w = (w', r) -> w_log w' = a ++ EvWarn k p :: l -> (length (w_log w) <= length l)%nat -> cause E q k p l.
Proof.
  intros fuel cfuel E dev q cl dest w w' r a k p l H HL Hlen. destruct (k_recover cfuel E dev q cl fuel dest _ _ _ H) as (evs & E1 & HC). rewrite HL in E1.
  apply app_eq_app in E1 as (m & [[-> E1]|[-> E1]]).
  - exfalso. apply (f_equal (@length _)) in E1. rewrite app_length in E1. cbn [length] in E1. lia.
  - destruct m as [|x m]; cbn [app] in E1; [exfalso; apply (f_equal (@length _)) in E1; cbn [length] in E1; lia|]. injection E1 as <- ->. exact (HC a k p m eq_refl).
Qed.
Print Assumptions C80_no_false_alarm.

(** Non-vacuity: a directory [a] that cannot be created because a file is in the way, a file [x] that cannot be
    opened (opening fails) and a link [l] without target: three warnings, and nothing is said about the
    directory [y], which is its own parent. *)
From Verif Require Import SpecLayout PropsLayout PropsStore PropsPath MkIndex PropsRecoverEx.
Definition alarm_items : list item := [dir_at 5 256 100 (mkdi 257 1 2 s_a); dir_at 5 256 200 (mkdi 258 1 1 s_x); dir_at 5 256 300 (mkdi 259 1 7 s_l); dir_at 5 256 400 (mkdi 256 1 2 s_y);
  irec 5 258 3; inl 5 258 0 b_abc].
Definition warned (l : list event) : list (wkind * list byte) := flat_map (fun e => match e with EvWarn k p => [(k, p)] | _ => [] end) l.
Definition alarm_run := doRecoverFiles 10 10 (mkEnv [] (fun n k => match k with OOpen => FErr 1 | _ => FNone end)) nodev (ixq alarm_items) false (abs1 s_d) (w0 [([s_d], NDir); ([s_d; s_a], NFile [])]).
Example C80_ex : warned (w_log (fst alarm_run)) = [(WLink, abs2 s_d s_l); (WFile, abs2 s_d s_x); (WDir, abs2 s_d s_a)] /\ exists v, snd alarm_run = Ret (true, v).
Proof. split; [vm_compute; reflexivity|]. vm_compute. eexists. reflexivity. Qed.

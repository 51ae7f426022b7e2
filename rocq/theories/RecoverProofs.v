(** Reasoning about runs of recover: relations kept by every step. *)
From Verif Require Import Go GoProofs Layout KeyFmt Bolt Store Fs Recover.
From Coq Require Import ZifyBool ZifyNat ZifyN.
Ltac Zify.zify_post_hook ::= Z.div_mod_to_equations.

(** whatever [m] does, it leads from a world to one related by [R] *)
Definition keeps (R : world -> world -> Prop) {A} (m : M A) : Prop := forall w w' o, m w = (w', o) -> R w w'.

(** names made from numbers *)
Lemma digit_plain x : 0 <= x < 10 -> beqb slash (digit_char x) = false /\ beqb backslash (digit_char x) = false.
Proof.
  intros H. assert (C : x = 0 \/ x = 1 \/ x = 2 \/ x = 3 \/ x = 4 \/ x = 5 \/ x = 6 \/ x = 7 \/ x = 8 \/ x = 9) by lia.
  repeat (destruct C as [->|C]; [split; reflexivity|]). subst x. split; reflexivity.
Qed.
Lemma dec_plain n : 0 <= n -> has_byte slash (dec n) = false /\ has_byte backslash (dec n) = false.
Proof.
  unfold dec. assert (G : forall fuel n acc, 0 <= n -> has_byte slash acc = false -> has_byte backslash acc = false ->
     has_byte slash (dec_loop fuel n acc) = false /\ has_byte backslash (dec_loop fuel n acc) = false).
  { induction fuel as [|fuel IH]; intros m acc Hm A B; cbn [dec_loop]; [auto|]. destruct (m <? 10) eqn:EL.
    - destruct (digit_plain m ltac:(lia)) as [D1 D2]. unfold has_byte in *. cbn [existsb]. rewrite D1, D2. auto.
    - destruct (digit_plain (m mod 10) ltac:(lia)) as [D1 D2]. apply IH; [lia| |]; unfold has_byte in *; cbn [existsb]; rewrite ?D1, ?D2; auto. }
  intros Hn. apply G; auto.
Qed.
Lemma subvol_name_ok n : 0 <= n -> skip_name (subvol_prefix ++ dec n) = false.
Proof.
  intros Hn. destruct (dec_plain n Hn) as [A B]. unfold skip_name. rewrite !orb_false_iff. unfold has_byte in *. rewrite !existsb_app, A, B.
  repeat split; reflexivity.
Qed.
Section Keeps.
  Variable R : world -> world -> Prop.
  Hypothesis Rrefl : forall w, R w w.
  Hypothesis Rtrans : forall a b c, R a b -> R b c -> R a c.
  Lemma keeps_ret {A} (a : A) : keeps R (ret a).
  Proof. intros w w' o H. unfold ret in H. injection H as <- _. apply Rrefl. Qed.
  Lemma keeps_timeout {A} : keeps R (fun w => (w, @OTimeout A)).
  Proof. intros w w' o H. injection H as <- _. apply Rrefl. Qed.
  Lemma keeps_bind {A B} (m : M A) (f : A -> M B) : keeps R m -> (forall a, keeps R (f a)) -> keeps R (bind m f).
  Proof.
    intros Hm Hf w w' o H. unfold bind in H. destruct (m w) as [w1 o1] eqn:E. pose proof (Hm _ _ _ E) as R1.
    destruct o1 as [a| | |]; [exact (Rtrans _ _ _ R1 (Hf a _ _ _ H))| | |]; injection H as <- _; exact R1.
  Qed.
  Lemma keeps_lift {A} (r : Res A) : keeps R (lift r).
  Proof. intros w w' o H. unfold lift in H. destruct r; injection H as <- _; apply Rrefl. Qed.
  (** the value is constrained by what [m] can return *)
  Lemma keeps_bind' {A B} (P : A -> Prop) (m : M A) (f : A -> M B) :
    keeps R m -> (forall w w' a, m w = (w', Ret a) -> P a) -> (forall a, P a -> keeps R (f a)) -> keeps R (bind m f).
  Proof.
    intros Hm HP Hf w w' o H. unfold bind in H. destruct (m w) as [w1 o1] eqn:E. pose proof (Hm _ _ _ E) as R1.
    destruct o1 as [a| | |]; [exact (Rtrans _ _ _ R1 (Hf a (HP _ _ _ E) _ _ _ H))| | |]; injection H as <- _; exact R1.
  Qed.
  Lemma keeps_lift_bind {A B} (r : Res A) (f : A -> M B) : (forall a, r = Ok a -> keeps R (f a)) -> keeps R (bind (lift r) f).
  Proof.
    intros Hf w w' o H. unfold bind, lift in H. destruct r as [a| |]; [exact (Hf a eq_refl _ _ _ H)| |]; injection H as <- _; apply Rrefl.
  Qed.

  (** ** the walk over the directories *)
  Variables (cfuel : nat) (E : env) (dev : readerAt) (q : queries) (clobber : bool).
  Variable pathOK : list byte -> Prop.
  Variable itemOK : slice -> Prop.
  Hypothesis Hemit : forall e, match e with EvList _ _ | EvWarn _ _ => True | _ => False end -> keeps R (emit e).
  Hypothesis Hmk : forall s, pathOK s -> keeps R (MkdirAll E s).
  Hypothesis Hfile : forall owner i s, pathOK s -> keeps R (recoverFile cfuel E dev q clobber owner i s).
  Hypothesis Hlink : forall di owner dest i s, itemOK di -> classify owner dest di = Ok (ALink i s) -> pathOK s ->
    keeps R (recoverSymlink E dev q clobber owner i s).
  Hypothesis Hjoin : forall s n, pathOK s -> skip_name n = false -> pathOK (Join s n).
  Hypothesis Hitems : forall o d, Forall (fun e => itemOK (snd e)) (st_items (q_dirItems q o d)).

  Lemma classify_path owner dest di : pathOK dest ->
    match classify owner dest di with
    | Ok (ADir _ _ p) | Ok (AFile _ p) | Ok (ALink _ p) => pathOK p
    | _ => True
    end.
  Proof using Hjoin.
    intros Hp. unfold classify. destruct (DirItem_Name di) as [n| |]; cbn [rbind]; [|exact Logic.I|exact Logic.I].
    destruct (skip_name n) eqn:ES; [exact Logic.I|]. pose proof (Hjoin dest n Hp ES) as HJ.
    destruct (DirItem_IsDir di) as [d| |]; cbn [rbind]; [|exact Logic.I|exact Logic.I].
    destruct (if d then Ok true else DirItem_IsSubvolume di) as [sub| |]; cbn [rbind]; [|exact Logic.I|exact Logic.I].
    destruct sub.
    - destruct (DirItem_Location di); cbn [rbind]; [|exact Logic.I|exact Logic.I]. destruct (DirItem_IsSubvolume di) as [[]| |]; cbn [rbind]; auto.
    - destruct (DirItem_Type di); cbn [rbind]; [|exact Logic.I|exact Logic.I]. destruct (_ =? FtRegFile).
      + destruct (DirItem_Location di); cbn [rbind]; auto.
      + destruct (_ =? FtSymlink); [|exact Logic.I]. destruct (DirItem_Location di); cbn [rbind]; auto.
  Qed.
  Lemma keeps_warn ok k p : keeps R (if ok : bool then ret tt else emit (EvWarn k p)).
  Proof using Rrefl Hemit. destruct ok; [apply keeps_ret|apply Hemit; exact Logic.I]. Qed.
  Lemma keeps_items rec owner dest : pathOK dest ->
    (forall o d p v, pathOK p -> keeps R (rec o d p v)) ->
    forall l v, Forall (fun e => itemOK (snd e)) l -> keeps R (items_loop rec cfuel E dev q clobber owner dest l v).
  Proof using Rrefl Rtrans Hemit Hfile Hlink Hjoin.
    intros Hp Hrec. induction l as [|[k di] l IH]; intros v HF; cbn [items_loop]; [apply keeps_ret|].
    inversion HF as [|? ? H1 H2]; subst. cbn [snd] in H1. apply keeps_lift_bind. intros a EA. pose proof (classify_path owner dest di Hp) as HC. rewrite EA in HC.
    apply keeps_bind; [|intros v'; apply IH; exact H2].
    destruct a as [|o d p|i p|i p]; [apply keeps_ret| | |].
    - apply keeps_bind; [apply Hrec; exact HC|]. intros [v' ok]. apply keeps_bind; [apply keeps_warn|intros _; apply keeps_ret].
    - apply keeps_bind; [apply Hfile; exact HC|]. intros ok. apply keeps_bind; [apply keeps_warn|intros _; apply keeps_ret].
    - apply keeps_bind; [exact (Hlink di owner dest i p H1 EA HC)|]. intros ok. apply keeps_bind; [apply keeps_warn|intros _; apply keeps_ret].
  Qed.
  Lemma keeps_dir : forall fuel owner dir dest v, pathOK dest -> keeps R (recoverDir fuel cfuel E dev q clobber owner dir dest v).
  Proof using Rrefl Rtrans Hemit Hfile Hlink Hjoin Hmk Hitems.
    induction fuel as [|fuel IH]; intros owner dir dest v Hp; cbn [recoverDir]; [apply keeps_timeout|].
    destruct (key_in (owner, dir) v); [apply keeps_ret|]. apply keeps_bind; [apply Hmk; exact Hp|]. intros ok. destruct ok; cbn [negb]; [|apply keeps_ret].
    apply keeps_bind; [apply Hemit; exact Logic.I|]. intros _. apply keeps_bind; [apply keeps_lift|]. intros _. apply keeps_bind; [|intros v'; apply keeps_ret].
    apply keeps_items; [exact Hp|intros; apply IH; assumption|apply Hitems].
  Qed.
  Lemma keeps_subvols fuel dest : pathOK dest -> forall l fin v, Forall (fun e => 0 <= ObjectID (ik_Key (fst e))) l ->
    keeps R (subvols_loop fuel cfuel E dev q clobber dest l fin v).
  Proof using Rrefl Rtrans Hemit Hfile Hlink Hjoin Hmk Hitems.
    intros Hp. induction l as [|[k d] l IH]; intros fin v HF; cbn [subvols_loop].
    - apply keeps_bind; [apply keeps_lift|intros _; apply keeps_ret].
    - inversion HF as [|? ? H1 H2]; subst. cbn [fst] in H1. apply keeps_bind; [|intros v'; apply IH; exact H2].
      destruct (key_in _ v); [apply keeps_ret|]. apply keeps_bind.
      + apply keeps_dir. unfold subvol_dest. apply Hjoin; [exact Hp|apply subvol_name_ok; exact H1].
      + intros [v' ok]. apply keeps_bind; [apply keeps_warn|intros _; apply keeps_ret].
  Qed.
  Lemma ik_ObjectID_pos k : 0 <= ObjectID (ik_Key k).
  Proof. apply be_decode_range. Qed.
  Lemma keeps_recover fuel dest : pathOK dest -> keeps R (doRecoverFiles fuel cfuel E dev q clobber dest).
  Proof using Rrefl Rtrans Hemit Hfile Hlink Hjoin Hmk Hitems.
    intros Hp. unfold doRecoverFiles. apply keeps_bind; [apply Hmk; exact Hp|]. intros ok. destruct ok; cbn [negb].
    - apply keeps_bind; [apply keeps_dir; exact Hp|]. intros [v ok]. apply keeps_bind; [apply keeps_warn|]. intros _. apply keeps_bind; [|intros v'; apply keeps_ret].
      apply keeps_subvols; [exact Hp|]. apply Forall_forall. intros e _. apply ik_ObjectID_pos.
    - apply keeps_bind; [apply Hemit; exact Logic.I|intros _; apply keeps_ret].
  Qed.
End Keeps.

(** ** the single operations *)
Section Ops.
  Variable R : world -> world -> Prop.
  Hypothesis Rrefl : forall w, R w w.
  Hypothesis Rtrans : forall a b c, R a b -> R b c -> R a c.
  Variables (cfuel : nat) (E : env) (dev : readerAt) (q : queries) (clobber : bool) (path : list byte).
  Hypothesis Hread : forall n o, keeps R (devRead dev n o).
  Section File.
  Variable h : cpath.
  Hypothesis Hwrite : forall d o, keeps R (WriteAt E h path d o).
  Hypothesis Htrunc : forall s, keeps R (FTruncate E h path s).
  Lemma keeps_copy fuel : forall nb so fo c, keeps R (copy_loop fuel E dev h path nb so fo c).
  Proof using Rrefl Rtrans Hread Hwrite.
    induction fuel as [|fuel IH]; intros nb so fo c; cbn [copy_loop]; [apply keeps_timeout; exact Rrefl|].
    destruct (c <? nb); [|apply keeps_ret; exact Rrefl]. cbv zeta. apply keeps_bind; [exact Rtrans|apply Hread|]. intros [d e].
    apply keeps_bind; [exact Rtrans| |].
    - destruct (0 <? zlen d); [|apply keeps_ret; exact Rrefl]. apply keeps_bind; [exact Rtrans|apply Hwrite|]. intros r. apply keeps_ret; exact Rrefl.
    - intros b. destruct b; cbn [negb]; [|apply keeps_ret; exact Rrefl]. destruct e as [[]|]; [destruct (_ <? nb)| |apply IH]; apply keeps_ret; exact Rrefl.
  Qed.
  Lemma keeps_inline ii fo e : keeps R (inline_extent E h path ii fo e).
  Proof using Rrefl Rtrans Hwrite.
    unfold inline_extent. apply keeps_lift_bind; [exact Rrefl|]. intros d _. cbv zeta. destruct (0 <? _); [|apply keeps_ret; exact Rrefl].
    apply keeps_lift_bind; [exact Rrefl|]. intros d' _. apply keeps_bind; [exact Rtrans|apply Hwrite|]. intros r. apply keeps_ret; exact Rrefl.
  Qed.
  Lemma keeps_disk fo e : keeps R (disk_extent cfuel E dev q h path fo e).
  Proof using Rrefl Rtrans Hread Hwrite.
    unfold disk_extent. apply keeps_lift_bind; [exact Rrefl|]. intros n _. apply keeps_lift_bind; [exact Rrefl|]. intros nr _. destruct (nr =? 0).
    - apply keeps_lift_bind; [exact Rrefl|]. intros z _. apply keeps_bind; [exact Rtrans|apply Hwrite|]. intros r. apply keeps_ret; exact Rrefl.
    - apply keeps_lift_bind; [exact Rrefl|]. intros [dv phys] _. apply keeps_lift_bind; [exact Rrefl|]. intros o _. apply keeps_copy.
  Qed.
  Lemma keeps_extents ii fin : forall l, keeps R (extents_loop cfuel E dev q h path ii l fin).
  Proof using Rrefl Rtrans Hread Hwrite.
    induction l as [|[k e] l IH]; cbn [extents_loop].
    - apply keeps_bind; [exact Rtrans|apply keeps_lift; exact Rrefl|]. intros _. apply keeps_ret; exact Rrefl.
    - cbv zeta. apply keeps_lift_bind; [exact Rrefl|]. intros b _. apply keeps_bind; [exact Rtrans|destruct b; [apply keeps_inline|apply keeps_disk]|].
      intros f. destruct f; [exact IH|apply keeps_ret; exact Rrefl].
  Qed.
  (** everything recoverFile does with the open file *)
  Definition fill_file (cfuel : nat) (E : env) (dev : readerAt) (q : queries) (path : list byte) (ii : option Z) (h : cpath) (xs : stream) : M bool :=
    match st_items xs with
    | [] =>
        _ <~ lift (st_end xs) ;;
        _ <~ (match ii with Some size => FTruncate E h path (i64 size) | None => ret None end) ;;
        ret true
    | l =>
        f <~ extents_loop cfuel E dev q h path ii l (st_end xs) ;;
        match f with
        | Returned ok => ret ok
        | Go_on =>
            match ii with
            | Some size => r <~ FTruncate E h path (i64 size) ;; ret (is_some r)
            | None => ret true
            end
        end
    end.
  Lemma keeps_fill ii xs : keeps R (fill_file cfuel E dev q path ii h xs).
  Proof using Rrefl Rtrans Hread Hwrite Htrunc.
    unfold fill_file. destruct (st_items xs) as [|x l].
    - apply keeps_bind; [exact Rtrans|apply keeps_lift; exact Rrefl|]. intros _. apply keeps_bind; [exact Rtrans| |intros _; apply keeps_ret; exact Rrefl].
      destruct ii; [apply Htrunc|apply keeps_ret; exact Rrefl].
    - apply keeps_bind; [exact Rtrans|apply keeps_extents|]. intros f. destruct f; [|apply keeps_ret; exact Rrefl].
      destruct ii; [|apply keeps_ret; exact Rrefl]. apply keeps_bind; [exact Rtrans|apply Htrunc|]. intros r. apply keeps_ret; exact Rrefl.
  Qed.
  End File.
  Hypothesis Hstat : keeps R (Stat E path).
  Hypothesis Hopen : keeps R (OpenFile E path).
  Hypothesis Hwrite : forall h d o, keeps R (WriteAt E h path d o).
  Hypothesis Htrunc : forall h s, keeps R (FTruncate E h path s).
  Lemma keeps_file owner i : keeps R (recoverFile cfuel E dev q clobber owner i path).
  Proof using Rrefl Rtrans Hread Hwrite Htrunc Hstat Hopen.
    unfold recoverFile. apply keeps_bind; [exact Rtrans|exact Hstat|]. intros k. destruct (is_some k && negb clobber); [apply keeps_ret; exact Rrefl|].
    apply keeps_lift_bind; [exact Rrefl|]. intros x _. apply keeps_lift_bind; [exact Rrefl|]. intros ii _. apply keeps_bind; [exact Rtrans|exact Hopen|].
    intros [h|]; [|apply keeps_ret; exact Rrefl]. apply (keeps_fill h (Hwrite h) (Htrunc h) ii (q_extents q owner i)).
  Qed.
  Lemma keeps_target e : keeps R (link_target dev q e).
  Proof using Rrefl Rtrans Hread.
    unfold link_target. apply keeps_lift_bind; [exact Rrefl|]. intros b _. destruct b; [apply keeps_lift_bind; [exact Rrefl|]; intros t _; apply keeps_ret; exact Rrefl|].
    apply keeps_lift_bind; [exact Rrefl|]. intros nr _. destruct (0 <? nr); [|apply keeps_ret; exact Rrefl].
    apply keeps_lift_bind; [exact Rrefl|]. intros [dv phys] _. apply keeps_lift_bind; [exact Rrefl|]. intros o _. apply keeps_lift_bind; [exact Rrefl|]. intros n _.
    apply keeps_lift_bind; [exact Rrefl|]. intros buf _. apply keeps_bind; [exact Rtrans|apply Hread|]. intros [d [e0|]]; apply keeps_ret; exact Rrefl.
  Qed.
  Hypothesis Hlstat : keeps R (Lstat E path).
  Hypothesis Hremove : clobber = true -> keeps R (Remove E path).
  Hypothesis Hsymlink : forall t, keeps R (Symlink E t path).
  Lemma keeps_symlink owner i : keeps R (recoverSymlink E dev q clobber owner i path).
  Proof using Rrefl Rtrans Hread Hlstat Hremove Hsymlink.
    unfold recoverSymlink. apply keeps_bind; [exact Rtrans|exact Hlstat|]. intros k. destruct (is_some k && negb clobber) eqn:EK; [apply keeps_ret; exact Rrefl|].
    apply keeps_bind; [exact Rtrans| |].
    - destruct (is_some k); [apply Hremove; destruct clobber; [reflexivity|discriminate EK]|apply keeps_ret; exact Rrefl].
    - intros _. apply keeps_lift_bind; [exact Rrefl|]. intros [e|] _; [|apply keeps_ret; exact Rrefl]. apply keeps_bind; [exact Rtrans|apply keeps_target|].
      intros [t|]; [|apply keeps_ret; exact Rrefl]. apply keeps_bind; [exact Rtrans|apply Hsymlink|]. intros r. apply keeps_ret; exact Rrefl.
  Qed.
End Ops.

Section MkAll.
  Variable R : world -> world -> Prop.
  Hypothesis Rrefl : forall w, R w w.
  Hypothesis Rtrans : forall a b c, R a b -> R b c -> R a c.
  Variable E : env.
  Variable P : list byte -> Prop.
  Hypothesis Hparent : forall s p, P s -> parent_of s = Some p -> P p.
  Hypothesis Hstat : forall s, P s -> keeps R (Stat E s).
  Hypothesis Hlstat : forall s, P s -> keeps R (Lstat E s).
  Hypothesis Hmkdir : forall s, P s -> keeps R (Mkdir E s).
  Lemma keeps_mkall_loop fuel : forall s, P s -> keeps R (MkdirAll_loop fuel E s).
  Proof using Rrefl Rtrans Hparent Hstat Hlstat Hmkdir.
    induction fuel as [|fuel IH]; intros s Hs; cbn [MkdirAll_loop]; [apply keeps_timeout; exact Rrefl|]. apply keeps_bind; [exact Rtrans|apply Hstat; exact Hs|].
    intros k. assert (HT : keeps R (ok <~ match parent_of s with Some p => MkdirAll_loop fuel E p | None => ret true end ;;
        if ok : bool then r <~ Mkdir E s ;; match r with Some _ => ret true | None => k <~ Lstat E s ;; ret (is_kdir k) end else ret false)).
    { apply keeps_bind; [exact Rtrans| |].
      - destruct (parent_of s) eqn:EP; [apply IH; eapply Hparent; eassumption|apply keeps_ret; exact Rrefl].
      - intros [|]; [|apply keeps_ret; exact Rrefl]. apply keeps_bind; [exact Rtrans|apply Hmkdir; exact Hs|]. intros [|]; [apply keeps_ret; exact Rrefl|].
        apply keeps_bind; [exact Rtrans|apply Hlstat; exact Hs|]. intros k'. apply keeps_ret; exact Rrefl. }
    destruct k as [[| |]|]; [apply keeps_ret; exact Rrefl|apply keeps_ret; exact Rrefl|apply keeps_ret; exact Rrefl|exact HT].
  Qed.
  Lemma keeps_mkall s : P s -> keeps R (MkdirAll E s).
  Proof using Rrefl Rtrans Hparent Hstat Hlstat Hmkdir. apply keeps_mkall_loop. Qed.
End MkAll.

(** C106 (continued): every entry is told of or warned about; reading the lines back. *)
From Verif Require Import Go GoProofs Layout KeyFmt Bolt Store ToString Fs Recover RecoverProofs PropsRecoverPaths RecoverSays PropsText PropsReport PropsRecoverSays PropsRecoverEx SpecLayout StructProofs PropsLayout MkIndex PropsPath.
From Coq Require Import Strings.String.
From Coq Require Import List ZifyBool ZifyNat.
Import ListNotations.
Ltac Zify.zify_post_hook ::= Z.div_mod_to_equations.

(** ** Every listed file, link and special entry is told of, or warned about *)
(** an entry [di] of a directory recovered to [dst]; names recover refuses are left out, directories have their own lists *)
Definition entry_told (said : list said) (log : list event) (dst : list byte) (di : slice) : Prop :=
  forall name t, DirItem_Name di = Ok name -> skip_name name = false -> DirItem_Type di = Ok t -> DirItem_IsSubvolume di = Ok false ->
  let p := Join dst name in
  (t = 1 -> (exists n, In (SFile p n) said) \/ In (SExists p) said \/ In (EvWarn WFile p) log) /\
  (t = 7 -> (exists x, In (SLink p x) said) \/ In (SLinkExists p) said \/ In (EvWarn WLink p) log) /\
  (t <> 1 -> t <> 2 -> t <> 7 -> In (SSpecial p t) said).
Section All.
  Variables (cfuel : nat) (E : env) (dev : readerAt) (q : queries) (clobber : bool).
  Definition told_all (ws : world * list said) (o d : Z) : Prop := exists dst, forall k di, In (k, di) (st_items (q_dirItems q o d)) -> entry_told (snd ws) (w_log (fst ws)) dst di.
  (** the log and the lines only grow, and directories that were not listed before are accounted for *)
  Definition grows (a b : world * list said) : Prop := (exists evs, w_log (fst b) = evs ++ w_log (fst a)) /\ exists l, snd b = l ++ snd a.
  Definition lists_all (a b : world * list said) : Prop := grows a b /\ forall o d, In (EvList o d) (w_log (fst b)) -> In (EvList o d) (w_log (fst a)) \/ told_all b o d.
  Definition all {A} (v : V A) : Prop := forall ws ws' a, v ws = (ws', Ret a) -> lists_all ws ws'.
  Lemma grows_in_log a b e : grows a b -> In e (w_log (fst a)) -> In e (w_log (fst b)).
  Proof. intros [(evs & H) _] HI. rewrite H. apply in_or_app. right. exact HI. Qed.
  Lemma grows_in_said a b e : grows a b -> In e (snd a) -> In e (snd b).
  Proof. intros [_ (l & H)] HI. rewrite H. apply in_or_app. right. exact HI. Qed.
  Lemma entry_more a b dst di : grows a b -> entry_told (snd a) (w_log (fst a)) dst di -> entry_told (snd b) (w_log (fst b)) dst di.
  Proof.
    intros HG H name t H1 H2 H3 H4 p. destruct (H name t H1 H2 H3 H4) as (A & B & C). pose proof (grows_in_log a b) as GL. pose proof (grows_in_said a b) as GS. split; [|split].
    - intros Ht. destruct (A Ht) as [(n & X)|[X|X]]; [left; exists n|right; left|right; right]; auto.
    - intros Ht. destruct (B Ht) as [(n & X)|[X|X]]; [left; exists n|right; left|right; right]; auto.
    - intros X Y Z. auto.
  Qed.
  Lemma all_refl a : lists_all a a.
  Proof. split; [split; exists []; reflexivity|auto]. Qed.
  Lemma grows_trans a b c : grows a b -> grows b c -> grows a c.
  Proof. intros [(e1 & A1) (l1 & A2)] [(e2 & B1) (l2 & B2)]. split; [exists (e2 ++ e1); rewrite B1, A1, app_assoc; reflexivity|exists (l2 ++ l1); rewrite B2, A2, app_assoc; reflexivity]. Qed.
  Lemma all_trans a b c : lists_all a b -> lists_all b c -> lists_all a c.
  Proof.
    intros [G1 H1] [G2 H2]. split; [exact (grows_trans _ _ _ G1 G2)|]. intros o d HI. destruct (H2 o d HI) as [X|X]; [|right; exact X]. destruct (H1 o d X) as [Y|(dst & Y)]; [left; exact Y|].
    right. exists dst. intros k di Hd. exact (entry_more _ _ _ _ G2 (Y k di Hd)).
  Qed.
  Lemma vbind_ret {A B} (v : V A) (f : A -> V B) ws ws' b : vbind v f ws = (ws', Ret b) -> exists ws1 a, v ws = (ws1, Ret a) /\ f a ws1 = (ws', Ret b).
  Proof. unfold vbind. destruct (v ws) as [ws1 [a| | |]]; try discriminate. intros H. exists ws1, a. auto. Qed.
  Lemma all_ret {A} (a : A) : all (vret a).
  Proof. intros ws ws' b H. injection H as <- _. apply all_refl. Qed.
  Lemma all_bind {A B} (v : V A) (f : A -> V B) : all v -> (forall a, all (f a)) -> all (vbind v f).
  Proof. intros Hv Hf ws ws' b H. apply vbind_ret in H as (ws1 & a & H1 & H2). exact (all_trans _ _ _ (Hv _ _ _ H1) (Hf a _ _ _ H2)). Qed.
  Definition nolist (e : event) : Prop := match e with EvList _ _ => False | _ => True end.
  Lemma all_up {A} (m : M A) : keeps (logs nolist) m -> all (up m).
  Proof.
    intros H [w s] ws' a E1. unfold up in E1. destruct (m w) as [w' o'] eqn:Em. injection E1 as <- ->. destruct (H _ _ _ Em) as (evs & L & F). split.
    - split; [exists evs; exact L|exists []; reflexivity].
    - intros o d HI. cbn [fst] in *. rewrite L in HI. apply in_app_or in HI as [HI|HI]; [|left; exact HI]. rewrite Forall_forall in F. destruct (F _ HI).
  Qed.
  Lemma all_say x : all (say x).
  Proof. intros [w s] ws' a H. injection H as <- _. split; [split; [exists []|exists [x]]; reflexivity|auto]. Qed.
  Lemma no_refl w : logs nolist w w. Proof. apply logs_refl. Qed.
  Lemma no_trans a b c : logs nolist a b -> logs nolist b c -> logs nolist a c. Proof. apply logs_trans. Qed.
  Lemma no_sys k s A (eff : fs -> fs * option A) part : keeps (logs nolist) (syscall E k s eff part).
  Proof. apply logs_syscall; [intros ok|]; exact Logic.I. Qed.
  Lemma no_read n o : keeps (logs nolist) (devRead dev n o).
  Proof. apply logs_read. intros; exact Logic.I. Qed.
  Lemma no_mk s : keeps (logs nolist) (MkdirAll E s).
  Proof. apply (keeps_mkall (logs nolist) no_refl no_trans E (fun _ => True)); auto; intros s' _; apply no_sys. Qed.
  Lemma no_lift {A} (r : Res A) : keeps (logs nolist) (lift r).
  Proof. apply keeps_lift. exact no_refl. Qed.
  Lemma no_warn (ok : bool) k p : keeps (logs nolist) (if ok then ret tt else emit (EvWarn k p)).
  Proof. destruct ok; [apply keeps_ret; exact no_refl|apply logs_emit; exact Logic.I]. Qed.
  Lemma all_file owner i p : all (recoverFileV cfuel E dev q clobber owner i p).
  Proof.
    unfold recoverFileV. apply all_bind; [apply all_up, no_sys|]. intros k. destruct (is_some k && negb clobber); [apply all_bind; [apply all_say|intros _; apply all_ret]|].
    apply all_bind; [apply all_up, no_lift|]. intros d. apply all_bind; [apply all_up, no_lift|]. intros ii. apply all_bind; [apply all_up, no_sys|]. intros [h|]; [|apply all_ret].
    apply all_bind; [apply all_say|]. intros _. apply all_up.
    apply (keeps_fill (logs nolist) no_refl no_trans cfuel E dev q p no_read h); intros; apply no_sys.
  Qed.
  Lemma all_link owner i p : all (recoverSymlinkV E dev q clobber owner i p).
  Proof.
    unfold recoverSymlinkV. apply all_bind; [apply all_up, no_sys|]. intros k. destruct (is_some k && negb clobber); [apply all_bind; [apply all_say|intros _; apply all_ret]|].
    apply all_bind; [apply all_up; destruct (is_some k); [apply no_sys|apply keeps_ret; exact no_refl]|]. intros _. apply all_bind; [apply all_up, no_lift|]. intros [e|]; [|apply all_ret].
    apply all_bind; [apply all_up; apply (keeps_target (logs nolist) no_refl no_trans dev q no_read)|]. intros [t|]; [|apply all_ret]. apply all_bind; [apply all_say|]. intros _.
    apply all_bind; [apply all_up, no_sys|]. intros r. apply all_ret.
  Qed.
  (** a file that was neither told of nor failed is a file there was none of *)
  Lemma file_answer owner i p ws ws' ok : recoverFileV cfuel E dev q clobber owner i p ws = (ws', Ret ok) ->
    (exists n, In (SFile p n) (snd ws')) \/ In (SExists p) (snd ws') \/ ok = false.
  Proof.
    intros H. unfold recoverFileV in H. apply vbind_ret in H as (ws1 & k & _ & H). destruct (is_some k && negb clobber).
    - apply vbind_ret in H as ([w2 s2] & [] & H1 & H2). destruct ws1 as [w1 s1]. injection H1 as <- <-. injection H2 as <- _. right. left. left. reflexivity.
    - apply vbind_ret in H as (ws2 & d & _ & H). apply vbind_ret in H as (ws3 & ii & _ & H). apply vbind_ret in H as (ws4 & h & _ & H). destruct h as [h|]; [|injection H as _ <-; auto].
      apply vbind_ret in H as (ws5 & [] & H1 & H2). left. eexists. destruct ws4 as [w4 s4]. injection H1 as <-. unfold up in H2. destruct (rest_of_file _ _ _ _ _ _ _ _ w4) as [w6 o6]. injection H2 as <- _. left. reflexivity.
  Qed.
  Lemma link_answer owner i p ws ws' ok : recoverSymlinkV E dev q clobber owner i p ws = (ws', Ret ok) ->
    (exists t, In (SLink p t) (snd ws')) \/ In (SLinkExists p) (snd ws') \/ ok = false.
  Proof.
    intros H. unfold recoverSymlinkV in H. apply vbind_ret in H as (ws1 & k & _ & H). destruct (is_some k && negb clobber).
    - apply vbind_ret in H as ([w2 s2] & [] & H1 & H2). destruct ws1 as [w1 s1]. injection H1 as <- <-. injection H2 as <- _. right. left. left. reflexivity.
    - apply vbind_ret in H as (ws2 & [] & _ & H). { apply vbind_ret in H as (ws3 & e & _ & H). destruct e as [e|]; [|injection H as _ <-; auto]. apply vbind_ret in H as (ws4 & t & _ & H).
        destruct t as [t|]; [|injection H as _ <-; auto]. apply vbind_ret in H as (ws5 & [] & H1 & H2). left. exists t. destruct ws4 as [w4 s4]. injection H1 as <-.
        apply vbind_ret in H2 as (ws6 & r & H2 & H3). injection H3 as <- _. unfold up in H2. destruct (Symlink E t p w4) as [w6 o6]. injection H2 as <- _. left. reflexivity. }
      apply vbind_ret in H as (ws3 & e & _ & H). destruct e as [e|]; [|injection H as _ <-; auto]. apply vbind_ret in H as (ws4 & t & _ & H).
      destruct t as [t|]; [|injection H as _ <-; auto]. apply vbind_ret in H as (ws5 & [] & H1 & H2). left. exists t. destruct ws4 as [w4 s4]. injection H1 as <-.
      apply vbind_ret in H2 as (ws6 & r & H2 & H3). injection H3 as <- _. unfold up in H2. destruct (Symlink E t p w4) as [w6 o6]. injection H2 as <- _. left. reflexivity.
  Qed.
  Lemma warned (ok : bool) k p ws ws' : up (if ok then ret tt else emit (EvWarn k p)) ws = (ws', Ret tt) -> snd ws' = snd ws /\ (ok = false -> In (EvWarn k p) (w_log (fst ws'))).
  Proof. destruct ws as [w s]. unfold up. destruct ok; cbn; intros H; injection H as <-; split; try reflexivity; [discriminate|intros _; left; reflexivity]. Qed.
  Lemma up_lift_ret {A} (r : Res A) ws ws' a : up (lift r) ws = (ws', Ret a) -> ws' = ws /\ r = Ok a.
  Proof. destruct ws as [w s]. unfold up, lift. destruct r; intros H; try discriminate. injection H as <- <-. auto. Qed.
  Lemma all_items recV owner dest : (forall o d p v, all (recV o d p v)) ->
    forall l v ws ws' v', items_loopV recV cfuel E dev q clobber owner dest l v ws = (ws', Ret v') ->
    lists_all ws ws' /\ forall k di, In (k, di) l -> entry_told (snd ws') (w_log (fst ws')) dest di.
  Proof.
    intros HR. induction l as [|[k di] l IH]; intros v ws ws' v' H; cbn [items_loopV] in H; [injection H as <- _; split; [apply all_refl|intros k di []]|].
    apply vbind_ret in H as (ws1 & a & H1 & H). apply up_lift_ret in H1 as [-> EC]. apply vbind_ret in H as (ws2 & v2 & H1 & H2). destruct (IH _ _ _ _ H2) as [A2 T2]. clear IH H2.
    assert (G : lists_all ws ws2 /\ entry_told (snd ws2) (w_log (fst ws2)) dest di).
    { unfold classify in EC. assert (CL : forall name t, DirItem_Name di = Ok name -> skip_name name = false -> DirItem_Type di = Ok t -> DirItem_IsSubvolume di = Ok false -> t <> 2 ->
        (t = 1 /\ exists i, a = AFile i (Join dest name)) \/ (t = 7 /\ exists i, a = ALink i (Join dest name)) \/ (t <> 1 /\ t <> 7 /\ a = ASkip /\ special dest di = Ok (Some (Join dest name, t)))).
      { intros name t E1 E2 E3 E4 NT. unfold special. unfold DirItem_IsDir in EC. rewrite E1 in EC |- *. cbn [rbind] in EC |- *. rewrite E2 in EC |- *. rewrite E3 in EC |- *. cbn [rbind] in EC |- *. rewrite E4 in EC. unfold FtDir, FtRegFile, FtSymlink in EC.
        replace (t =? 2) with false in EC by lia. cbn [rbind] in EC. destruct (t =? 1) eqn:T1.
        - destruct (DirItem_Location di) as [loc| |]; cbn [rbind] in EC; try discriminate. injection EC as <-. left. split; [lia|eexists; reflexivity].
        - destruct (t =? 7) eqn:T7.
          + destruct (DirItem_Location di) as [loc| |]; cbn [rbind] in EC; try discriminate. injection EC as <-. right. left. split; [lia|eexists; reflexivity].
          + injection EC as <-. right. right. split; [lia|]. split; [lia|]. auto. }
      fold (classify owner dest di) in EC. destruct a as [|o d p|i p|i p].
      - apply vbind_ret in H1 as (ws3 & x & E1 & H1). apply up_lift_ret in E1 as [-> ES]. apply vbind_ret in H1 as (ws4 & [] & E1 & H1). injection H1 as <- _.
        assert (L : lists_all ws ws4). { destruct x as [[p t]|]; [exact (all_say _ _ _ _ E1)|injection E1 as <-; apply all_refl]. } split; [exact L|].
        intros name t F1 F2 F3 F4 p. split; [|split]; intros T.
        + exfalso. destruct (CL name t F1 F2 F3 F4 ltac:(lia)) as [[_ (i & X)]|[[? _]|(? & _)]]; [discriminate X|lia|lia].
        + exfalso. destruct (CL name t F1 F2 F3 F4 ltac:(lia)) as [[? _]|[[_ (i & X)]|(_ & ? & _)]]; [lia|discriminate X|lia].
        + intros T2' T7. destruct (CL name t F1 F2 F3 F4 T2') as [[? _]|[[? _]|(_ & _ & _ & X)]]; [lia|lia|]. rewrite ES in X. injection X as ->. destruct ws as [w s]. injection E1 as <-. left. reflexivity.
      - apply vbind_ret in H1 as (ws3 & r & E1 & H1). apply vbind_ret in H1 as (ws4 & [] & E2 & H1). injection H1 as <- _. split; [exact (all_trans _ _ _ (HR _ _ _ _ _ _ _ E1) (all_up _ (no_warn _ _ _) _ _ _ E2))|].
        intros name t F1 F2 F3 F4 p'. destruct (Z.eq_dec t 2) as [->|NT]; [split; [|split]; intros; exfalso; lia|]. exfalso.
        destruct (CL name t F1 F2 F3 F4 NT) as [[_ (i & X)]|[[_ (i & X)]|(_ & _ & X & _)]]; discriminate X.
      - apply vbind_ret in H1 as (ws3 & r & E1 & H1). apply vbind_ret in H1 as (ws4 & [] & E2 & H1). injection H1 as <- _. split; [exact (all_trans _ _ _ (all_file _ _ _ _ _ _ E1) (all_up _ (no_warn _ _ _) _ _ _ E2))|].
        destruct (warned _ _ _ _ _ E2) as [W1 W2]. pose proof (file_answer _ _ _ _ _ _ E1) as FA.
        intros name t F1 F2 F3 F4 p'. destruct (Z.eq_dec t 2) as [->|NT]; [split; [|split]; intros; exfalso; lia|].
        destruct (CL name t F1 F2 F3 F4 NT) as [[-> (j & X)]|[[_ (j & X)]|(_ & _ & X & _)]]; try discriminate X. injection X as _ ->. split; [intros _|split; intros; exfalso; lia]. subst p'. rewrite W1.
        destruct FA as [FA|[FA|FA]]; auto.
      - apply vbind_ret in H1 as (ws3 & r & E1 & H1). apply vbind_ret in H1 as (ws4 & [] & E2 & H1). injection H1 as <- _. split; [exact (all_trans _ _ _ (all_link _ _ _ _ _ _ E1) (all_up _ (no_warn _ _ _) _ _ _ E2))|].
        destruct (warned _ _ _ _ _ E2) as [W1 W2]. pose proof (link_answer _ _ _ _ _ _ E1) as FA.
        intros name t F1 F2 F3 F4 p'. destruct (Z.eq_dec t 2) as [->|NT]; [split; [|split]; intros; exfalso; lia|].
        destruct (CL name t F1 F2 F3 F4 NT) as [[_ (j & X)]|[[-> (j & X)]|(_ & _ & X & _)]]; try discriminate X. injection X as _ ->. split; [intros; exfalso; lia|]. split; [intros _|intros; exfalso; lia]. subst p'. rewrite W1.
        destruct FA as [FA|[FA|FA]]; auto. }
    destruct G as [L T]. split; [exact (all_trans _ _ _ L A2)|]. intros k' di' [HI|HI]; [injection HI as <- <-; exact (entry_more _ _ _ _ (proj1 A2) T)|exact (T2 k' di' HI)].
  Qed.
  Lemma all_dir fuel : forall owner dir dest v, all (recoverDirV fuel cfuel E dev q clobber owner dir dest v).
  Proof.
    induction fuel as [|fuel IH]; intros owner dir dest v; cbn [recoverDirV]; [intros ws ws' a H; discriminate|].
    destruct (key_in (owner, dir) v); [apply all_ret|]. apply all_bind; [apply all_up, no_mk|]. intros [|]; cbn [negb]; [|apply all_ret].
    intros ws ws' a H. apply vbind_ret in H as (ws1 & [] & H1 & H). apply vbind_ret in H as (ws2 & [] & H2 & H). apply up_lift_ret in H2 as [-> _]. apply vbind_ret in H as (ws3 & v' & H2 & H). injection H as <- _.
    destruct (all_items _ _ _ IH _ _ _ _ _ H2) as [[G L] T]. destruct ws as [w s]. unfold up, emit in H1. injection H1 as <-. split.
    - refine (grows_trans (w, s) _ _ _ G). split; [exists [EvList owner dir]|exists []]; reflexivity.
    - intros o d HI. destruct (L o d HI) as [[X|X]|X]; [injection X as <- <-; right; exists dest; exact T|left; exact X|right; exact X].
  Qed.
  Lemma all_subvols fuel dest : forall l fin v, all (subvols_loopV fuel cfuel E dev q clobber dest l fin v).
  Proof.
    induction l as [|[k d] l IH]; intros fin v; cbn [subvols_loopV]; [apply all_bind; [apply all_up, no_lift|intros _; apply all_ret]|].
    apply all_bind; [|intros v'; apply IH]. destruct (key_in _ v); [apply all_ret|]. apply all_bind; [apply all_say|]. intros _. apply all_bind; [apply all_dir|]. intros r.
    apply all_bind; [apply all_up, no_warn|intros _; apply all_ret].
  Qed.
End All.
(** In a run that ends, every file, link and special entry of every directory that was read, with a name recover accepts, is told of
    or warned about under the directory's destination. *)
Theorem C106_complete : forall fuel cfuel E dev q clobber dest w w' said a, (forall o d, ~ In (EvList o d) (w_log w)) ->
  doRecoverFilesV fuel cfuel E dev q clobber dest (w, []) = ((w', said), Ret a) ->
  forall o d, In (EvList o d) (w_log w') -> exists dst, forall k di, In (k, di) (st_items (q_dirItems q o d)) -> entry_told said (w_log w') dst di.
Proof.
  intros fuel cfuel E dev q clobber dest w w' sd a H0 H o d HI.
  assert (G : all q (doRecoverFilesV fuel cfuel E dev q clobber dest)).
  { unfold doRecoverFilesV. apply all_bind; [apply all_up, no_mk|]. intros [|]; cbn [negb].
    - apply all_bind; [apply all_say|]. intros _. apply all_bind; [apply all_dir|]. intros r. apply all_bind; [apply all_up, no_warn|]. intros _. apply all_bind; [apply all_subvols|]. intros v. apply all_ret.
    - apply all_bind; [apply all_up, logs_emit; exact Logic.I|intros _; apply all_ret]. }
  destruct (proj2 (G _ _ _ H) o d HI) as [X|X]; [destruct (H0 o d X)|exact X].
Qed.

(** ** Reading the lines back *)
Lemma digits_front d1 d2 c1 c2 x y : forallb is_dec_digit d1 = true -> forallb is_dec_digit d2 = true -> is_dec_digit c1 = false -> is_dec_digit c2 = false ->
  d1 ++ c1 :: x = d2 ++ c2 :: y -> d1 = d2 /\ c1 :: x = c2 :: y.
Proof.
  revert d2. induction d1 as [|a d1 IH]; intros d2 H1 H2 H3 H4 H; destruct d2 as [|b d2]; cbn [app forallb] in *.
  - auto.
  - injection H as -> _. rewrite H3 in H2. discriminate.
  - injection H as -> _. rewrite H4 in H1. discriminate.
  - injection H as -> H. apply andb_prop in H1 as [_ H1]. apply andb_prop in H2 as [_ H2]. destruct (IH d2 H1 H2 H3 H4 H) as [-> G]. auto.
Qed.
Lemma dec_same n m : is_u64 n -> is_u64 m -> dec n = dec m -> n = m.
Proof. intros Hn Hm H. destruct (dec_spec n Hn) as (_ & _ & A). destruct (dec_spec m Hm) as (_ & _ & B). rewrite <- A, <- B, H. reflexivity. Qed.
Lemma dec_front n m c1 c2 x y : is_u64 n -> is_u64 m -> is_dec_digit c1 = false -> is_dec_digit c2 = false -> dec n ++ c1 :: x = dec m ++ c2 :: y -> n = m /\ c1 :: x = c2 :: y.
Proof.
  intros Hn Hm H1 H2 H. destruct (digits_front _ _ _ _ _ _ (proj1 (proj2 (dec_spec n Hn))) (proj1 (proj2 (dec_spec m Hm))) H1 H2 H) as [A B]. split; [exact (dec_same n m Hn Hm A)|exact B].
Qed.
Lemma dec_back n m c1 c2 x y : is_u64 n -> is_u64 m -> is_dec_digit c1 = false -> is_dec_digit c2 = false -> (x ++ [c1]) ++ dec n = (y ++ [c2]) ++ dec m -> n = m /\ x ++ [c1] = y ++ [c2].
Proof.
  intros Hn Hm H1 H2 H. apply (f_equal (@rev byte)) in H. rewrite !rev_app_distr in H. cbn [rev app] in H.
  assert (RD : forall k, is_u64 k -> forallb is_dec_digit (rev (dec k)) = true). { intros k Hk. apply forallb_forall. intros b Hb. apply in_rev in Hb. pose proof (proj1 (proj2 (dec_spec k Hk))) as G. rewrite forallb_forall in G. exact (G b Hb). }
  destruct (digits_front _ _ _ _ _ _ (RD n Hn) (RD m Hm) H1 H2 H) as [A B]. apply (f_equal (@rev byte)) in A. rewrite !rev_involutive in A. split; [exact (dec_same n m Hn Hm A)|].
  apply (f_equal (@rev byte)) in B. cbn [rev] in B. rewrite !rev_involutive in B. exact B.
Qed.
(** what can be read from a line: all of it, but for a link only "path -> target" as a whole *)
Definition reads_as (a b : said) : Prop :=
  match a, b with
  | SLink p t, SLink p' t' => p ++ str " -> "%string ++ t = p' ++ str " -> "%string ++ t'
  | _, _ => a = b
  end.
(** numbers are 64-bit; paths and targets have no newline *)
Definition plain_line (s : said) : Prop :=
  match s with
  | SRoot o => is_u64 o
  | SSubvol o p => is_u64 o /\ ~ In x0a p
  | SSpecial p t => is_u64 t /\ ~ In x0a p
  | SExists p | SLinkExists p => ~ In x0a p
  | SFile p n => is_u64 n /\ ~ In x0a p
  | SLink p t => ~ In x0a p /\ ~ In x0a t
  end.
Lemma text_5 s : firstn 5 (text_of s) = match s with SRoot _ | SSubvol _ _ => str "Recov"%string | SSpecial _ _ => str "skipp"%string | SExists _ => str "file "%string
  | SFile _ _ | SLink _ _ => str "recov"%string | SLinkExists _ => str "symli"%string end.
Proof. destruct s; reflexivity. Qed.
Lemma text_12 s : match s with SRoot _ | SSubvol _ _ | SFile _ _ | SLink _ _ => True | _ => False end ->
  firstn 12 (text_of s) = match s with SRoot _ => str "Recovering r"%string | SSubvol _ _ => str "Recovering u"%string | SFile _ _ => str "recovering f"%string | _ => str "recovering s"%string end.
Proof. destruct s; intros H; try contradiction; reflexivity. Qed.
Lemma line_read a b : plain_line a -> plain_line b -> text_of a = text_of b -> reads_as a b.
Proof.
  intros Ha Hb H. destruct a, b; cbn [plain_line] in *;
    try (exfalso; pose proof (f_equal (firstn 5) H) as H5; rewrite !text_5 in H5; discriminate H5);
    try (exfalso; pose proof (f_equal (firstn 12) H) as H12; rewrite !text_12 in H12 by exact Logic.I; discriminate H12).
  all: cbn [reads_as text_of] in *; apply app_inv_head in H.
  - destruct (dec_front owner owner0 x2e x2e (str ".."%string) (str ".."%string) Ha Hb eq_refl eq_refl H) as [-> _]. reflexivity.
  - destruct Ha as [Ha _], Hb as [Hb _]. destruct (dec_front owner owner0 x20 x20 (str "to "%string ++ path ++ str "..."%string) (str "to "%string ++ path0 ++ str "..."%string) Ha Hb eq_refl eq_refl H) as [-> G].
    change (str " to "%string ++ path ++ str "..."%string = str " to "%string ++ path0 ++ str "..."%string) in G. apply app_inv_head in G. apply app_inv_tail in G. rewrite G. reflexivity.
  - destruct Ha as [Ha _], Hb as [Hb _]. destruct (dec_back type type0 x20 x20 (path ++ str " of type"%string) (path0 ++ str " of type"%string) Ha Hb eq_refl eq_refl) as [-> G].
    { rewrite <- !app_assoc. exact H. } apply app_inv_tail in G. apply app_inv_tail in G. rewrite G. reflexivity.
  - apply app_inv_tail in H. rewrite H. reflexivity.
  - destruct Ha as [Ha _], Hb as [Hb _]. assert (H' : (path ++ str " (size: "%string ++ dec size) ++ str ")"%string = (path0 ++ str " (size: "%string ++ dec size0) ++ str ")"%string) by (rewrite <- !app_assoc; exact H). apply app_inv_tail in H'.
    destruct (dec_back size size0 x20 x20 (path ++ str " (size:"%string) (path0 ++ str " (size:"%string) Ha Hb eq_refl eq_refl) as [-> G].
    { rewrite <- !app_assoc. exact H'. } apply app_inv_tail in G. apply app_inv_tail in G. rewrite G. reflexivity.
  - apply app_inv_tail in H. rewrite H. reflexivity.
  - exact H.
Qed.
Lemma line_plain s : plain_line s -> ~ In x0a (text_of s).
Proof.
  assert (D : forall n, is_u64 n -> ~ In x0a (dec n)). { intros n Hn HI. pose proof (proj1 (proj2 (dec_spec n Hn))) as G. rewrite forallb_forall in G. specialize (G _ HI). discriminate G. }
  assert (L : forall t, forallb (fun c => negb (beqb c x0a)) t = true -> ~ In x0a t). { intros t Ht HI. rewrite forallb_forall in Ht. specialize (Ht _ HI). discriminate Ht. }
  intros H. destruct s; cbn [plain_line text_of] in *; repeat match goal with HH : _ /\ _ |- _ => destruct HH end; intros HI;
    repeat (apply in_app_or in HI as [HI|HI]); try contradiction; try (revert HI; apply D; assumption); try (revert HI; apply L; vm_compute; reflexivity).
Qed.
(** The text gives back the lines, in order: kind, path, size, type, subvolume; of a link path and target together. *)
Theorem C106_text_partial : forall l1 l2, Forall plain_line l1 -> Forall plain_line l2 -> transcript true l1 = transcript true l2 -> Forall2 reads_as (rev l1) (rev l2).
Proof.
  intros l1 l2 H1 H2 H. apply (f_equal lines_of) in H. cbn [transcript] in H.
  assert (G : forall l, Forall plain_line l -> lines_of (concat (map (fun s => text_of s ++ [x0a]) (rev l))) = map text_of (rev l)).
  { intros l Hl. rewrite <- (lines_concat (map text_of (rev l))); [rewrite map_map; reflexivity|]. intros b Hb. apply in_map_iff in Hb as (s & <- & Hs). apply in_rev in Hs. rewrite Forall_forall in Hl. apply line_plain. exact (Hl s Hs). }
  rewrite !G in H by assumption. apply Forall_rev in H1, H2. revert H1 H2 H. generalize (rev l1) as a, (rev l2) as b. clear. induction a as [|x a IH]; intros [|y b] H1 H2 H; cbn [map] in H; try discriminate; [constructor|].
  injection H as E H. inversion H1; subst. inversion H2; subst. constructor; [apply line_read; assumption|apply IH; assumption].
Qed.

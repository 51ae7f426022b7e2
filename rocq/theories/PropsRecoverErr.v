(** C49: failures are reported. *)
From Verif Require Import Go GoProofs Layout KeyFmt Bolt Store Fs Recover RecoverProofs SpecFs SpecContent PathProofs PropsRecoverPaths FsProofs PropsRecoverSafe PropsRecoverDfs PropsRecoverFile.
From Coq Require Import ZifyBool ZifyNat ZifyN.
Ltac Zify.zify_post_hook ::= Z.div_mod_to_equations.

(** an operation that failed: opening or writing a file, creating a symbolic link,
    a read that hit the end of the device before all bytes were there *)
Definition failed (e : event) : Prop :=
  match e with
  | EvOp OOpen _ false | EvOp OWrite _ false | EvOp OSymlink _ false => True
  | EvRead _ n got (Some EOF) => got < n
  | _ => False
  end.
(** a system call on [p], or a read of the device *)
Definition about (p : list byte) (e : event) : Prop :=
  match e with
  | EvOp _ p' _ | EvDead _ p' => p' = p
  | EvRead _ _ _ _ => True
  | _ => False
  end.
(** newest first: after every failure of an operation for [p] comes a warning about
    [p], and in between nothing but operations for [p] *)
Definition reported (evs : list event) : Prop := forall a e b, evs = a ++ e :: b -> failed e ->
  exists a' k p mid, a = a' ++ EvWarn k p :: mid /\ Forall (about p) mid /\ about p e.

Lemma reported_nil : reported [].
Proof. intros a e b H. destruct a; discriminate. Qed.
Lemma reported_app s1 s2 : reported s1 -> reported s2 -> reported (s2 ++ s1).
Proof.
  intros H1 H2 a e b H HF. apply app_eq_app in H as (l & [[-> H]|[-> H]]).
  - destruct l as [|x l]; cbn [app] in H; [|injection H as <- ->].
    + subst s1. destruct (H1 [] e b eq_refl HF) as (a' & k & p & mid & HX & _). destruct a'; discriminate.
    + destruct (H2 a e l eq_refl HF) as (a' & k & p & mid & -> & HM). exists a', k, p, mid. auto.
  - destruct (H1 l e b H HF) as (a' & k & p & mid & -> & HM). exists (s2 ++ a'), k, p, mid. rewrite <- app_assoc. auto.
Qed.
Lemma reported_fine evs : Forall (fun e => ~ failed e) evs -> reported evs.
Proof. intros H a e b -> HF. apply Forall_app in H as [_ H]. inversion H. contradiction. Qed.
Lemma reported_warn k p evs : Forall (about p) evs -> reported (EvWarn k p :: evs).
Proof.
  intros H [|x a] e b HE HF; cbn [app] in HE; injection HE as <- HE; [destruct HF|]. subst evs. apply Forall_app in H as [HA HB]. inversion HB; subst.
  exists [], k, p, a. auto.
Qed.

(** ** results that are no error leave no failure behind *)
Definition nof (e : event) : Prop := ~ failed e.
Definition okres {A} (m : M A) (good : A -> bool) : Prop := forall w w' a, m w = (w', Ret a) -> good a = true -> logs nof w w'.
Lemma okres_bind {A B} (m : M A) (f : A -> M B) g good : okres m g -> (forall a, g a = false -> forall w w' b, f a w = (w', Ret b) -> good b = false) -> (forall a, g a = true -> okres (f a) good) -> okres (bind m f) good.
Proof.
  intros Hm Hf Ht w w' b H Hb. apply bind_ret_inv in H as (w1 & a & HA & H). destruct (g a) eqn:Eg.
  - exact (logs_trans _ _ _ _ (Hm _ _ _ HA Eg) (Ht a Eg _ _ _ H Hb)).
  - rewrite (Hf a Eg _ _ _ H) in Hb. discriminate.
Qed.
Lemma okres_ret {A} (x : A) good : okres (ret x) good.
Proof. intros w w' a H _. apply ret_inv in H as [_ ->]. apply logs_refl. Qed.
Lemma okres_lift {A B} (r : Res A) (f : A -> M B) good : (forall a, r = Ok a -> okres (f a) good) -> okres (bind (lift r) f) good.
Proof. intros H w w' b HB Hg. apply bind_ret_inv in HB as (w1 & a & HA & HB). apply lift_ret_inv in HA as [HA ->]. exact (H a HA _ _ _ HB Hg). Qed.
Lemma okres_quiet {A} E k s (eff : fs -> fs * option A) part good : match k with OOpen | OWrite | OSymlink => False | _ => True end -> okres (syscall E k s eff part) good.
Proof.
  intros Hk w w' a H _. unfold syscall in H. destruct (e_faults E (w_ops w) k); [destruct (eff (w_fs w)) as [F r]| |discriminate]; injection H as <- _; eexists [_]; (split; [reflexivity|]); constructor; auto; intros HF; destruct k; try exact HF; destruct Hk.
Qed.
Lemma okres_sys {A} E k s (eff : fs -> fs * option A) part : okres (syscall E k s eff part) is_some.
Proof.
  intros w w' a H Ha. unfold syscall in H. destruct (e_faults E (w_ops w) k); [destruct (eff (w_fs w)) as [F r]|injection H as <- <-; discriminate|discriminate]. injection H as <- <-. rewrite Ha. eexists [_]. split; [reflexivity|].
  constructor; auto. intros HF. destruct k; exact HF.
Qed.
Definition goes_on (f : flow) : bool := match f with Go_on => true | Returned ok => ok end.
Lemma okres_copy E dev h path n src off : 0 <= n < 2^64 -> (forall m o, 0 < m -> zlen (fst (dev m o)) <= m) -> forall fuel c, 0 <= c <= n -> okres (copy_loop fuel E dev h path n src off c) goes_on.
Proof.
  intros Hn Hdev. induction fuel as [|fuel IH]; intros c Hc; [intros w w' a H; discriminate|]. cbn [copy_loop]. cbv zeta. destruct (c <? n) eqn:C0; [|apply okres_ret].
  assert (Hu : u64 (n - c) = n - c) by (apply u64_small; unfold is_u64; lia). rewrite Hu. set (m := if chunkSize <? n - c then chunkSize else n - c).
  assert (Hm : 0 < m <= n - c) by (unfold m, chunkSize; destruct (1024 * 1024 <? n - c) eqn:C; lia). clearbody m. set (so := i64 (u64 (src + c))). clearbody so.
  intros w w' f H Hf. apply bind_ret_inv in H as (w1 & [d err] & HR & H). unfold devRead in HR. specialize (Hdev m so ltac:(lia)). destruct (dev m so) as [d0 err0]. injection HR as <- -> ->. cbn [fst] in Hdev. pose proof (zlen_nonneg d) as Hd0.
  assert (Hcu : u64 (c + zlen d) = c + zlen d) by (apply u64_small; unfold is_u64; lia). rewrite Hcu in H.
  assert (Hev : nof (EvRead so m (zlen d) err) /\ logs nof (mkWorld (w_fs w) (w_ops w) (EvRead so m (zlen d) err :: w_log w)) w').
  { apply bind_ret_inv in H as (w2 & ok & HW & H). destruct ok; cbn [negb] in H; [|apply ret_inv in H as [<- _]; discriminate].
    assert (HWl : logs nof (mkWorld (w_fs w) (w_ops w) (EvRead so m (zlen d) err :: w_log w)) w2).
    { destruct (0 <? zlen d); [|apply ret_inv in HW as [_ ->]; apply logs_refl]. apply bind_ret_inv in HW as (w3 & r & HX & HY). apply ret_inv in HY as [Hr ->]. exact (okres_sys _ _ _ _ _ _ _ _ HX Hr). }
    destruct err as [[]|].
    - destruct (c + zlen d <? n) eqn:C; apply ret_inv in H as [<- ->]; [discriminate|]. split; [intros HF; cbn [failed] in HF; lia|exact HWl].
    - apply ret_inv in H as [<- ->]. split; [intros []|exact HWl].
    - split; [intros []|]. refine (logs_trans _ _ _ _ HWl (IH _ _ _ _ _ H Hf)). lia. }
  destruct Hev as [Hev HL]. eapply logs_trans; [|exact HL]. eexists [_]. split; [reflexivity|]. constructor; auto.
Qed.
Lemma okres_write E h path data off : okres (r <~ WriteAt E h path data off ;; ret (if is_some r then Go_on else Returned false)) goes_on.
Proof.
  eapply okres_bind; [apply okres_sys| |intros a _; apply okres_ret]. intros a Ha w w' b H. apply ret_inv in H as [<- _]. rewrite Ha. reflexivity.
Qed.
Lemma okres_extents cfuel E dev q h path ii fin : (forall m o, 0 < m -> zlen (fst (dev m o)) <= m) -> forall l, okres (extents_loop cfuel E dev q h path ii l fin) goes_on.
Proof.
  intros Hdev. induction l as [|[k e] l IH]; cbn [extents_loop]; [apply okres_lift; intros; apply okres_ret|]. cbv zeta. apply okres_lift. intros inl _.
  eapply okres_bind with (g := goes_on).
  - destruct inl.
    + unfold inline_extent. apply okres_lift. intros d _. cbv zeta. match goal with |- context [if ?b then _ else ret Go_on] => destruct b end; [|apply okres_ret]. apply okres_lift. intros s _. apply okres_write.
    + unfold disk_extent. apply okres_lift. intros n Hn. apply okres_lift. intros nr _. destruct (nr =? 0); [apply okres_lift; intros z _; apply okres_write|].
      apply okres_lift. intros [id ph] _. apply okres_lift. intros o _. pose proof (at64_range _ _ _ Hn). apply okres_copy; [lia|exact Hdev|lia].
  - intros [|ok] Hg w w' b H; [discriminate|]. apply ret_inv in H as [<- _]. exact Hg.
  - intros [|ok] Hg; [exact IH|apply okres_ret].
Qed.
Definition id_bool (b : bool) : bool := b.
Lemma okres_file cfuel E dev q cl o i p : (forall m o, 0 < m -> zlen (fst (dev m o)) <= m) -> okres (recoverFile cfuel E dev q cl o i p) id_bool.
Proof.
  intros Hdev. unfold recoverFile. eapply okres_bind with (g := fun _ => true); [apply okres_quiet; exact Logic.I|discriminate|]. intros k _. destruct (_ && _); [apply okres_ret|].
  apply okres_lift. intros it _. apply okres_lift. intros ii _. eapply okres_bind; [apply okres_sys| |].
  { intros [h|] Hg w w' b H; [discriminate|]. apply ret_inv in H as [<- _]. reflexivity. }
  intros [h|] _; [|apply okres_ret]. cbv zeta.
  assert (HT : forall sz, okres (FTruncate E h p sz) (fun _ => true)) by (intros sz; apply okres_quiet; exact Logic.I).
  assert (HE : okres (f <~ extents_loop cfuel E dev q h p ii (st_items (q_extents q o i)) (st_end (q_extents q o i)) ;;
            match f with Returned ok => ret ok | Go_on => match ii with Some size => r <~ FTruncate E h p (i64 size) ;; ret (is_some r) | None => ret true end end) id_bool).
  { eapply okres_bind; [apply okres_extents; exact Hdev| |].
    - intros [|ok] Hg w w' b H; [discriminate|]. apply ret_inv in H as [<- _]. exact Hg.
    - intros [|ok] _; [|apply okres_ret]. destruct ii as [sz|]; [|apply okres_ret]. eapply okres_bind with (g := fun _ => true); [apply HT|discriminate|]. intros; apply okres_ret. }
  destruct (st_items (q_extents q o i)) as [|e0 l]; [|exact HE]. apply okres_lift. intros u _. eapply okres_bind with (g := fun _ => true); [|discriminate|intros; apply okres_ret].
  destruct ii; [apply HT|apply okres_ret].
Qed.
Lemma okres_link E dev q cl o i p : okres (recoverSymlink E dev q cl o i p) id_bool.
Proof.
  unfold recoverSymlink. eapply okres_bind with (g := fun _ => true); [apply okres_quiet; exact Logic.I|discriminate|]. intros k _. destruct (_ && _); [apply okres_ret|].
  eapply okres_bind with (g := fun _ => true); [destruct (is_some k); [apply okres_quiet; exact Logic.I|apply okres_ret]|discriminate|]. intros _ _.
  apply okres_lift. intros [e|] _; [|apply okres_ret]. eapply okres_bind with (g := is_some).
  - unfold link_target. apply okres_lift. intros inl _. destruct inl; [apply okres_lift; intros; apply okres_ret|]. apply okres_lift. intros nr _. destruct (0 <? nr); [|apply okres_ret].
    apply okres_lift. intros [id ph] _. apply okres_lift. intros oo _. apply okres_lift. intros n _. apply okres_lift. intros buf _. intros w w' t H Ht. apply bind_ret_inv in H as (w1 & [d err] & HR & H).
    unfold devRead in HR. destruct (dev n _) as [d0 err0]. injection HR as <- -> ->. destruct err as [er|]; apply ret_inv in H as [<- ->]; [discriminate|]. eexists [_]. split; [reflexivity|]. constructor; auto. intros [].
  - intros [t|] Hg w w' b H; [discriminate|]. apply ret_inv in H as [<- _]. reflexivity.
  - intros [t|] _; [|apply okres_ret]. eapply okres_bind; [apply okres_sys| |intros; apply okres_ret]. intros r Hr w w' b H. apply ret_inv in H as [<- _]. exact Hr.
Qed.
(** C49 for one file: if opening it or writing to it failed, or the device ended
    before the extent did, an error is reported -- whatever the faults.  Missing from
    the full statement: reads that fail with an error other than io.EOF
    (C49_read_error_refuted) and a failing truncate of a file without extents
    (C49_truncate_refuted). *)
Theorem C49_file_partial cfuel E dev q cl o i p w w' ok evs : (forall m o, 0 < m -> zlen (fst (dev m o)) <= m) ->
  recoverFile cfuel E dev q cl o i p w = (w', Ret ok) -> w_log w' = evs ++ w_log w ->
  (exists e, In e evs /\ failed e) -> ok = false.
Proof.
  intros Hdev H HL (e & He & HF). destruct ok; [|reflexivity]. destruct (okres_file _ _ _ _ _ _ _ _ Hdev _ _ _ H eq_refl) as (evs' & HL' & HN). rewrite HL in HL'. apply app_inv_tail in HL'. subst evs'.
  rewrite Forall_forall in HN. destruct (HN e He HF).
Qed.
Print Assumptions C49_file_partial.
(** and a failing truncate of a file that has extents *)
Theorem C49_truncate_partial cfuel E dev q cl o i p w w' ok evs :
  recoverFile cfuel E dev q cl o i p w = (w', Ret ok) -> w_log w' = evs ++ w_log w ->
  st_items (q_extents q o i) <> [] -> In (EvOp OTrunc p false) evs -> ok = false.
Proof.
  set (P := fun e => e <> EvOp OTrunc p false). intros H HL HX Hin. destruct ok; [exfalso|reflexivity].
  assert (Hsys : forall k s A (eff : fs -> fs * option A) part, k <> OTrunc -> keeps (logs P) (syscall E k s eff part)) by (intros k s A eff part Hk; apply logs_syscall; [intros ok HE; congruence|discriminate]).
  assert (Hread : forall n off, keeps (logs P) (devRead dev n off)) by (intros; apply logs_read; discriminate).
  assert (HLP : logs P w w').
  { unfold recoverFile in H. apply bind_ret_inv in H as (w1 & k & HS & H). apply Hsys in HS; [|discriminate]. eapply logs_trans; [exact HS|]. destruct (_ && _); [apply ret_inv in H as [_ ->]; apply logs_refl|].
    apply bind_ret_inv in H as (w2 & it & HA & H). apply lift_ret_inv in HA as [_ ->]. apply bind_ret_inv in H as (w2 & ii & HA & H). apply lift_ret_inv in HA as [_ ->]. apply bind_ret_inv in H as (w2 & h & HO & H).
    apply Hsys in HO; [|discriminate]. eapply logs_trans; [exact HO|]. destruct h as [h|]; [|apply ret_inv in H as [H _]; discriminate]. cbv zeta in H. destruct (st_items (q_extents q o i)) as [|e0 l]; [congruence|].
    apply bind_ret_inv in H as (w3 & f & HE & H). assert (HE' : logs P w2 w3).
    { revert HE. set (R := logs P). set (l0 := e0 :: l). clearbody l0. clear - Hsys Hread. revert w2. induction l0 as [|[k e] l0 IH]; intros w2 HE; cbn [extents_loop] in HE.
      - apply bind_ret_inv in HE as (w4 & u & HA & HE). apply lift_ret_inv in HA as [_ ->]. apply ret_inv in HE as [_ ->]. apply logs_refl.
      - cbv zeta in HE. apply bind_ret_inv in HE as (w4 & inl & HA & HE). apply lift_ret_inv in HA as [_ ->]. apply bind_ret_inv in HE as (w5 & f1 & HF & HE). assert (HF' : logs P w2 w5).
        { destruct inl.
          - unfold inline_extent in HF. apply bind_ret_inv in HF as (w6 & d & HA & HF). apply lift_ret_inv in HA as [_ ->]. cbv zeta in HF. match type of HF with context [if ?b then _ else ret Go_on] => destruct b end; [|apply ret_inv in HF as [_ ->]; apply logs_refl].
            apply bind_ret_inv in HF as (w7 & s & HA & HF). apply lift_ret_inv in HA as [_ ->]. apply bind_ret_inv in HF as (w8 & r & HA & HF). apply ret_inv in HF as [_ ->]. apply Hsys in HA; [exact HA|discriminate].
          - unfold disk_extent in HF. apply bind_ret_inv in HF as (w6 & n & HA & HF). apply lift_ret_inv in HA as [_ ->]. apply bind_ret_inv in HF as (w7 & nr & HA & HF). apply lift_ret_inv in HA as [_ ->]. destruct (nr =? 0).
            + apply bind_ret_inv in HF as (w8 & z & HA & HF). apply lift_ret_inv in HA as [_ ->]. apply bind_ret_inv in HF as (w9 & r & HA & HF). apply ret_inv in HF as [_ ->]. apply Hsys in HA; [exact HA|discriminate].
            + apply bind_ret_inv in HF as (w8 & [id ph] & HA & HF). apply lift_ret_inv in HA as [_ ->]. apply bind_ret_inv in HF as (w9 & oo & HA & HF). apply lift_ret_inv in HA as [_ ->]. revert HF.
              clear IH HE. set (c := 0) at 1. clearbody c. generalize (u64 (ph + oo)) as src. intros src. revert w2 c. induction cfuel as [|fuel IHf]; intros w2 c HF; [discriminate|]. cbn [copy_loop] in HF. cbv zeta in HF.
              destruct (c <? n); [|apply ret_inv in HF as [_ ->]; apply logs_refl]. apply bind_ret_inv in HF as (wa & [d err] & HR & HF). apply Hread in HR. eapply logs_trans; [exact HR|].
              apply bind_ret_inv in HF as (wb & ok & HW & HF). assert (HWl : logs P wa wb).
              { destruct (0 <? zlen d); [|apply ret_inv in HW as [_ ->]; apply logs_refl]. apply bind_ret_inv in HW as (wc & r & HX & HY). apply ret_inv in HY as [_ ->]. apply Hsys in HX; [exact HX|discriminate]. }
              eapply logs_trans; [exact HWl|]. destruct ok; cbn [negb] in HF; [|apply ret_inv in HF as [_ ->]; apply logs_refl]. destruct err as [[]|]; [|apply ret_inv in HF as [_ ->]; apply logs_refl|exact (IHf _ _ HF)].
              destruct (u64 (c + zlen d) <? n); apply ret_inv in HF as [_ ->]; apply logs_refl. }
        eapply logs_trans; [exact HF'|]. destruct f1; [exact (IH _ HE)|apply ret_inv in HE as [_ ->]; apply logs_refl]. }
    eapply logs_trans; [exact HE'|]. destruct f as [|ok]; [|apply ret_inv in H as [_ ->]; apply logs_refl]. destruct ii as [sz|]; [|apply ret_inv in H as [_ ->]; apply logs_refl].
    apply bind_ret_inv in H as (w4 & r & HT & H). apply ret_inv in H as [Hr ->]. unfold FTruncate, syscall in HT. destruct (e_faults E (w_ops w3) OTrunc); [destruct (sys_trunc h (i64 sz) (w_fs w3)) as [F r0]|injection HT as _ <-; discriminate|discriminate].
    injection HT as <- <-. rewrite Hr. eexists [_]. split; [reflexivity|]. constructor; auto. discriminate. }
  destruct HLP as (evs' & HL' & HN). rewrite HL in HL'. apply app_inv_tail in HL'. subst evs'. rewrite Forall_forall in HN. exact (HN _ Hin eq_refl).
Qed.
Print Assumptions C49_truncate_partial.

(** ** the whole command *)
Definition reps {A} (m : M A) : Prop := forall w w' a, m w = (w', Ret a) -> exists evs, w_log w' = evs ++ w_log w /\ reported evs.
Lemma reps_ret {A} (x : A) : reps (ret x).
Proof. intros w w' a H. apply ret_inv in H as [_ ->]. exists []. split; [reflexivity|apply reported_nil]. Qed.
Lemma reps_bind {A B} (m : M A) (f : A -> M B) : reps m -> (forall a, reps (f a)) -> reps (bind m f).
Proof.
  intros Hm Hf w w' b H. apply bind_ret_inv in H as (w1 & a & HA & H). destruct (Hm _ _ _ HA) as (e1 & E1 & R1). destruct (Hf _ _ _ _ H) as (e2 & E2 & R2). exists (e2 ++ e1).
  rewrite E2, E1, app_assoc. split; [reflexivity|apply reported_app; assumption].
Qed.
Lemma reps_lift {A} (r : Res A) : reps (lift r).
Proof. intros w w' a H. apply lift_ret_inv in H as [_ ->]. exists []. split; [reflexivity|apply reported_nil]. Qed.
Lemma reps_emit e : ~ failed e -> reps (emit e).
Proof. intros He w w' a H. unfold emit in H. injection H as <- _. exists [e]. split; [reflexivity|]. apply reported_fine. auto. Qed.
Lemma reps_mkall E s : reps (MkdirAll E s).
Proof.
  assert (H : keeps (logs nof) (MkdirAll E s)).
  { apply (keeps_mkall (logs nof) (logs_refl _) (logs_trans _) E (fun _ => True)); auto; intros; apply logs_syscall; intros; intros HF; exact HF. }
  intros w w' a Ha. destruct (H _ _ _ Ha) as (evs & E1 & F). exists evs. split; [exact E1|apply reported_fine; exact F].
Qed.
(** an operation for [p], warning about [p] if it did not work *)
Lemma reps_warned k p (m : M bool) A (v : A) : okres m id_bool -> keeps (logs (about p)) m -> reps (ok <~ m ;; _ <~ (if ok : bool then ret tt else emit (EvWarn k p)) ;; ret v).
Proof.
  intros Hok Hab w w' a H. apply bind_ret_inv in H as (w1 & ok & HM & H). apply bind_ret_inv in H as (w2 & u & HW & H). apply ret_inv in H as [_ ->]. destruct ok.
  - apply ret_inv in HW as [_ ->]. destruct (Hok _ _ _ HM eq_refl) as (evs & E1 & F). exists evs. split; [exact E1|apply reported_fine; exact F].
  - destruct (Hab _ _ _ HM) as (evs & E1 & F). unfold emit in HW. injection HW as <- _. exists (EvWarn k p :: evs). cbn [w_log]. rewrite E1. split; [reflexivity|apply reported_warn; exact F].
Qed.
Lemma about_file cfuel E dev q cl o i p : keeps (logs (about p)) (recoverFile cfuel E dev q cl o i p).
Proof. apply keeps_file; [apply logs_refl|apply logs_trans|intros; apply logs_read; intros; exact Logic.I| | | |]; intros; apply logs_syscall; reflexivity. Qed.
Lemma about_link E dev q cl o i p : keeps (logs (about p)) (recoverSymlink E dev q cl o i p).
Proof. apply keeps_symlink; [apply logs_refl|apply logs_trans|intros; apply logs_read; intros; exact Logic.I| | |]; intros; apply logs_syscall; reflexivity. Qed.
Lemma reps_warn_dir (ok : bool) p : reps (if ok then ret tt else emit (EvWarn WDir p)).
Proof. destruct ok; [apply reps_ret|apply reps_emit; intros []]. Qed.
Section Whole.
  Variables (cfuel : nat) (E : env) (dev : readerAt) (q : queries) (cl : bool).
  Hypothesis Hdev : forall m o, 0 < m -> zlen (fst (dev m o)) <= m.
  Lemma reps_items rec owner dest : (forall o d p v, reps (rec o d p v)) -> forall l v, reps (items_loop rec cfuel E dev q cl owner dest l v).
  Proof using Hdev.
    intros Hrec. induction l as [|[k di] l IH]; intros v; cbn [items_loop]; [apply reps_ret|]. apply reps_bind; [apply reps_lift|]. intros a. apply reps_bind; [|intros v'; apply IH].
    destruct a as [|o d p|i p|i p]; [apply reps_ret| | |].
    - apply reps_bind; [apply Hrec|]. intros [v' ok]. apply reps_bind; [apply reps_warn_dir|]. intros _. apply reps_ret.
    - apply reps_warned; [apply okres_file; exact Hdev|apply about_file].
    - apply reps_warned; [apply okres_link|apply about_link].
  Qed.
  Lemma reps_dir : forall fuel o d dest v, reps (recoverDir fuel cfuel E dev q cl o d dest v).
  Proof using Hdev.
    induction fuel as [|fuel IH]; intros o d dest v; [intros w w' a H; discriminate|]. cbn [recoverDir]. destruct (key_in (o, d) v); [apply reps_ret|]. cbv zeta.
    apply reps_bind; [apply reps_mkall|]. intros []; cbn [negb]; [|apply reps_ret]. apply reps_bind; [apply reps_emit; intros []|]. intros _. apply reps_bind; [apply reps_lift|]. intros _.
    apply reps_bind; [apply reps_items; exact IH|]. intros v'. apply reps_ret.
  Qed.
  Lemma reps_subvols fuel dest fin : forall l v, reps (subvols_loop fuel cfuel E dev q cl dest l fin v).
  Proof using Hdev.
    induction l as [|[k di] l IH]; intros v; cbn [subvols_loop]; [apply reps_bind; [apply reps_lift|intros _; apply reps_ret]|]. cbv zeta. apply reps_bind; [|intros v'; apply IH].
    destruct (key_in _ v); [apply reps_ret|]. apply reps_bind; [apply reps_dir|]. intros [v' ok]. apply reps_bind; [apply reps_warn_dir|]. intros _. apply reps_ret.
  Qed.
  Lemma reps_recover fuel dest : reps (doRecoverFiles fuel cfuel E dev q cl dest).
  Proof using Hdev.
    unfold doRecoverFiles. apply reps_bind; [apply reps_mkall|]. intros []; cbn [negb]; [|apply reps_bind; [apply reps_emit; intros []|intros _; apply reps_ret]].
    apply reps_bind; [apply reps_dir|]. intros [v ok]. apply reps_bind; [apply reps_warn_dir|]. intros _. apply reps_bind; [apply reps_subvols|]. intros v'. apply reps_ret.
  Qed.
End Whole.
(** C49 for the command: in a run that ends by itself, whatever the faults, every
    failure to open or write a file or to create a symbolic link, and every read that
    ran into the end of the device, is followed by a warning that names the file,
    before anything is done for another file. *)
Theorem C49_warned_partial fuel cfuel E dev q cl dest w w' a : (forall m o, 0 < m -> zlen (fst (dev m o)) <= m) ->
  doRecoverFiles fuel cfuel E dev q cl dest w = (w', Ret a) -> exists evs, w_log w' = evs ++ w_log w /\ reported evs.
Proof. intros Hdev H. exact (reps_recover cfuel E dev q cl Hdev fuel dest w w' a H). Qed.
Print Assumptions C49_warned_partial.

(** C67, C69 with a destination that does not exist yet: MkdirAll creates it. *)
From Verif Require Import Go GoProofs Layout KeyFmt IoUtil Path.
From Verif Require Import Fs Recover RecoverProofs SpecFs SpecContent PathProofs PropsRecoverPaths FsProofs PropsRecoverSafe SpecTree TreeProofs TreeRun TreeFull PropsTree.
From Coq Require Import List ZifyBool ZifyNat ZifyN.

(** ** specification *)
(** the destination is spelled without ".."; what exists of the way to it are directories;
    the rest, possibly the destination itself, need not exist.  [D0] is the directory meant *)
Definition new_dest (E : env) (F : fs) (dest : list byte) (D0 : cpath) : Prop :=
  (forall p c, look F (p ++ [c]) <> None -> look F p = Some NDir) /\ path_arg dest = true /\ ~ In [dot; dot] (comps dest) /\
  D0 = (if is_abs dest then [] else e_cwd E) ++ comps dest /\ look F (if is_abs dest then [] else e_cwd E) = Some NDir /\
  (forall a b, D0 = a ++ b -> look F a = Some NDir \/ look F a = None) /\ Forall (fun c => zlen c <= 255) (comps dest).

(** ** proofs *)
Lemma comps_slashes t : Forall (fun c => beqb c slash = true) t -> comps t = [] /\ forall u, comps (u ++ t) = comps u.
Proof.
  induction 1 as [|c t Hc Ht [IH1 IH2]]; [split; [reflexivity|intros u; rewrite app_nil_r; reflexivity]|]. apply beqb_eq in Hc. subst c. split.
  - change (slash :: t) with ([] ++ slash :: t). rewrite comps_app, IH1. reflexivity.
  - intros u. rewrite comps_app, IH1, app_nil_r. reflexivity.
Qed.
Lemma comps_alone c : ~ In slash c -> (length (comps c) <= 1)%nat.
Proof. intros H. unfold comps. rewrite (Split_plain c H). cbn [filter]. destruct (negb _); cbn [length]; lia. Qed.
Lemma parent_comps s : exists c, (length (comps c) <= 1)%nat /\ match parent_of s with Some p => comps s = comps p ++ comps c | None => comps s = comps c end.
Proof.
  unfold parent_of. set (f := fun c => negb (beqb c slash)). set (g := fun c => beqb c slash).
  destruct (drop_while_app g (rev s)) as (t1 & E1 & G1). destruct (drop_while_app f (drop_while g (rev s))) as (t2 & E2 & G2).
  set (r := drop_while f (drop_while g (rev s))) in *. rewrite E2 in E1. apply (f_equal (@rev _)) in E1. rewrite rev_involutive, !rev_app_distr in E1.
  assert (N2 : ~ In slash (rev t2)). { intros H. apply in_rev in H. rewrite Forall_forall in G2. specialize (G2 _ H). unfold f in G2. apply negb_true_iff, beqb_neq in G2. congruence. }
  assert (S1 : Forall (fun c => beqb c slash = true) (rev t1)) by (apply Forall_rev; exact G1). destruct (comps_slashes _ S1) as [_ S2].
  exists (rev t2). split; [exact (comps_alone _ N2)|]. rewrite E1, S2. destruct r as [|x [|y t]] eqn:ER.
  - reflexivity.
  - cbn [rev app]. assert (x = slash) as ->. { pose proof (drop_while_head f (drop_while g (rev s)) x [] ER) as Hx. unfold f in Hx. apply negb_false_iff, beqb_eq in Hx. exact Hx. }
    change (slash :: rev t2) with ([] ++ slash :: rev t2). rewrite comps_app. reflexivity.
  - assert (x = slash) as ->. { pose proof (drop_while_head f (drop_while g (rev s)) x (y :: t) ER) as Hx. unfold f in Hx. apply negb_false_iff, beqb_eq in Hx. exact Hx. }
    change (rev (slash :: y :: t)) with (rev (y :: t) ++ [slash]). rewrite <- app_assoc. cbn [app]. rewrite comps_app. reflexivity.
Qed.
Lemma walk_line F fl : forall cs L cur p, ~ In [dot; dot] cs -> (forall a b, cs = a ++ b -> a <> [] -> look F (cur ++ a) = Some NDir \/ look F (cur ++ a) = None) ->
  walk L F fl cs cur = Some p -> p = cur ++ cs.
Proof.
  induction cs as [|c cs IH]; intros L cur p Hdd HA H; [rewrite walk_nil in H; rewrite app_nil_r; congruence|]. rewrite walk_cons in H.
  replace (is_dotdot c) with false in H by (symmetry; destruct (is_dotdot c) eqn:EC; [apply dd_spec in EC; subst; destruct Hdd; left; reflexivity|reflexivity]).
  destruct (long_name c); [discriminate|]. destruct (HA [c] cs eq_refl ltac:(discriminate)) as [E|E]; rewrite E in H.
  - apply IH in H; [rewrite H, <- app_assoc; reflexivity|intros X; apply Hdd; right; exact X|]. intros a b Hab Ha. rewrite <- app_assoc. apply (HA (c :: a) b); [rewrite Hab; reflexivity|discriminate].
  - destruct cs; [congruence|discriminate].
Qed.
(** [Q] and everything above is a directory, the rest is as before *)
Definition made (F F1 : fs) (Q : cpath) : Prop :=
  (forall a b, Q = a ++ b -> look F1 a = Some NDir) /\ (forall p, ~ at_or_below p Q -> look F1 p = look F p).
Section New.
  Variables (E : env) (B : cpath).
  Hypothesis HE : no_faults E.
  Lemma sys_run {A} k s (eff : fs -> fs * option A) part w : syscall E k s eff part w = (mkWorld (fst (eff (w_fs w))) (S (w_ops w)) (EvOp k s (is_some (snd (eff (w_fs w)))) :: w_log w), Ret (snd (eff (w_fs w)))).
  Proof. unfold syscall. rewrite (HE (w_ops w) k). destruct (eff (w_fs w)); reflexivity. Qed.
  Lemma mk_loop : forall fuel s w, (length s < fuel)%nat -> (if is_abs s then [] else e_cwd E) = B -> path_arg s = true -> existsb long_name (comps s) = false -> ~ In [dot; dot] (comps s) ->
    wf_fs (w_fs w) -> look (w_fs w) B = Some NDir -> (forall a b, B ++ comps s = a ++ b -> look (w_fs w) a = Some NDir \/ look (w_fs w) a = None) ->
    exists w1, MkdirAll_loop fuel E s w = (w1, Ret true) /\ made (w_fs w) (w_fs w1) (B ++ comps s).
  Proof.
    induction fuel as [|fuel IH]; intros s w Hf HB HP HS Hdd HW HLB HLn; [lia|]. cbn [MkdirAll_loop]. unfold bind at 1, Stat at 1. rewrite sys_run.
    set (w0 := mkWorld (fst _) _ _). assert (F0 : w_fs w0 = w_fs w) by reflexivity. clearbody w0.
    destruct (look (w_fs w) (B ++ comps s)) as [nd|] eqn:EQ.
    - destruct (HLn (B ++ comps s) [] ltac:(rewrite app_nil_r; reflexivity)) as [EQ'|EQ']; [|congruence]. rewrite EQ in EQ'. injection EQ' as ->.
      unfold sys_stat. cbn [snd]. unfold resolve. rewrite HP, HB, walk_anc, HS.
      + rewrite EQ. cbn [option_map kind_of]. exists w0. split; [reflexivity|]. rewrite F0. split; [|auto]. intros a b Hab. apply (wf_prefix _ HW b a). rewrite <- Hab. exact EQ.
      + exact Hdd.
      + intros a b Hab Hb _. apply (wf_prefix _ HW b). rewrite <- app_assoc, <- Hab. exact EQ.
      + intros _ t _. rewrite EQ. discriminate.
    - unfold sys_stat. cbn [snd]. replace (match resolve (w_fs w) (e_cwd E) true s with Some p => option_map kind_of (look (w_fs w) p) | None => None end) with (@None kind).
      2:{ destruct (resolve (w_fs w) (e_cwd E) true s) as [p|] eqn:ER; [|reflexivity]. unfold resolve in ER. rewrite HP, HB in ER. apply walk_line in ER; [subst p; rewrite EQ; reflexivity|exact Hdd|].
          intros a b Hab _. apply (HLn _ b). rewrite Hab, app_assoc. reflexivity. }
      destruct (parent_comps s) as (c & Hc1 & Hc).
      assert (HPar : exists w1 Q, match parent_of s with Some p => MkdirAll_loop fuel E p | None => ret true end w0 = (w1, Ret true) /\ made (w_fs w) (w_fs w1) Q /\ B ++ comps s = Q ++ comps c).
      { destruct (parent_of s) as [p|] eqn:EP.
        - destruct (parent_leading _ _ EP) as (Hp & (r & Hr) & Hl). assert (is_abs p = is_abs s) as Hab by (rewrite Hr, is_abs_app by exact Hp; reflexivity).
          destruct (IH p w0) as (w1 & H1 & H2); [lia|rewrite Hab; exact HB|rewrite Hr in HP; exact (path_arg_prefix _ _ HP Hp)|rewrite Hc, existsb_app in HS; apply orb_false_iff in HS; apply HS| | | | |].
          + intros X. apply Hdd. rewrite Hc. apply in_or_app. left. exact X.
          + rewrite F0. exact HW.
          + rewrite F0. exact HLB.
          + rewrite F0. intros a b Hab'. apply (HLn a (b ++ comps c)). rewrite Hc, !app_assoc, <- Hab'. reflexivity.
          + exists w1, (B ++ comps p). split; [exact H1|]. rewrite F0 in H2. split; [exact H2|]. rewrite Hc, app_assoc. reflexivity.
        - exists w0, B. split; [reflexivity|]. rewrite F0. split; [|rewrite Hc; reflexivity]. split; [|auto]. intros a b Hab. apply (wf_prefix _ HW b a). rewrite <- Hab. exact HLB. }
      destruct HPar as (w1 & Q & HM & (M1 & M2) & HQ). unfold bind at 1. rewrite HM. unfold bind at 1, Mkdir at 1. rewrite sys_run. unfold sys_mkdir. unfold resolve at 1 2 3. rewrite HP, HB.
      assert (HQd : look (w_fs w1) Q = Some NDir) by (apply (M1 Q []); rewrite app_nil_r; reflexivity).
      assert (HWk : forall fl, (fl = true -> forall t, look (w_fs w1) (B ++ comps s) <> Some (NLink t)) -> walk max_links (w_fs w1) fl (comps s) B = Some (B ++ comps s)).
      { intros fl Hfl. rewrite walk_anc, HS; [reflexivity|exact Hdd| |].
        - intros a b Hab Hb _. destruct (comps c) as [|c0 [|]] eqn:EC; [| |cbn [length] in Hc1; lia].
          + rewrite app_nil_r in HQ. apply (M1 _ b). rewrite <- HQ, Hab, app_assoc. reflexivity.
          + destruct b as [|b0 b _] using rev_ind; [congruence|]. rewrite Hab, !app_assoc in HQ. apply app_inj_tail in HQ as [HQ _]. apply (M1 _ b). symmetry. exact HQ.
        - intros H t _. exact (Hfl H t). }
      rewrite HWk by discriminate.
      destruct (comps c) as [|c0 [|]] eqn:EC; [| |cbn [length] in Hc1; lia].
      + (* the parent has the same components *)
        rewrite app_nil_r in HQ. rewrite HQ, HQd. cbn [fst snd]. unfold bind, Lstat. rewrite sys_run. cbn [w_fs]. unfold sys_stat, resolve. cbn [fst snd]. rewrite HP, HB, HWk by discriminate. rewrite HQ, HQd. cbn [option_map kind_of is_kdir].
        eexists. split; [reflexivity|]. cbn [w_fs]. split; assumption.
      + assert (HN : look (w_fs w1) (B ++ comps s) = None). { rewrite M2; [exact EQ|]. intros (r & Hr). rewrite HQ in Hr. apply (f_equal (@length _)) in Hr. rewrite !app_length in Hr. cbn [length] in Hr. lia. }
        rewrite HN. cbn [fst snd]. eexists. split; [reflexivity|]. cbn [w_fs]. pose proof (none_root _ _ HN) as Hne. split.
        * intros a b Hab. rewrite look_put by exact Hne. destruct (cpath_dec (B ++ comps s) a) as [_|Na]; [reflexivity|]. destruct b as [|b0 b _] using rev_ind; [rewrite app_nil_r in Hab; congruence|].
          rewrite HQ, app_assoc in Hab. apply app_inj_tail in Hab as [Hab _]. exact (M1 a b Hab).
        * intros p Hp. rewrite look_put by exact Hne. destruct (cpath_dec (B ++ comps s) p) as [Ep|_]; [destruct Hp; exists []; rewrite app_nil_r; exact Ep|]. apply M2. intros (r & Hr). apply Hp. exists (r ++ [c0]). rewrite HQ, Hr, app_assoc. reflexivity.
  Qed.
End New.
Lemma new_facts E F dest P : new_dest E F dest P -> ~ In [dot; dot] (comps dest) /\ dest <> [] /\ Forall (fun c => zlen c <= 255) (comps dest) /\ P = D0 E dest /\ path_arg dest = true /\ existsb long_name (comps dest) = false.
Proof.
  intros (W & HP & Hnd & HD & HL & HN & HS). split; [exact Hnd|]. split; [intros ->; discriminate|]. split; [exact HS|]. split; [exact HD|]. split; [exact HP|].
  clear -HS. induction HS as [|c l H _ IH]; [reflexivity|]. cbn [existsb]. rewrite IH. unfold long_name. replace (255 <? zlen c) with false by lia. reflexivity.
Qed.
Lemma new_oks q A E dest kids F P : volume_shape q A kids -> new_dest E F dest P -> paths_short dest kids -> okp dest [] /\ oks dest [] kids.
Proof.
  intros (main & ks & extra & V1 & V2 & V3 & V4 & -> & V6) HD HP. destruct (new_facts _ _ _ _ HD) as (Hnd & Hne & Hsh & _ & Hpa & _).
  assert (HK : kids_deep (main ++ extra)) by (intros n t Hin; apply in_app_or in Hin as [Hin|Hin]; [exact (proj1 (shows_deep q A) _ _ _ _ V1 n t Hin)|exact (proj1 (subs_deep _ _ _ _ _ V3) n t Hin)]).
  assert (HND : NoDup (map fst (main ++ extra))) by (apply nodup_app_names; [inversion V1; eapply list_nodup; eassumption|exact (proj2 (subs_deep _ _ _ _ _ V3))|exact V6]).
  split; [apply okp_of; auto; apply HP; discriminate|]. intros n t r Hin Hr. cbn [app]. assert (HT : tree_at (TDir (main ++ extra)) (n :: r) <> None) by (cbn [tree_at]; rewrite (In_pick _ _ _ HND Hin); exact Hr).
  apply okp_of; auto. apply (deep_dir _ HK). exact HT.
Qed.
(** C67 with a destination that may have to be created: afterwards it and everything
    above are directories, it holds exactly the tree, and nothing else has changed. *)
Theorem C67_new_destination cfuel E dev D q clobber dest w P kids :
  no_faults E -> good_device D dev -> zlen D < 2^63 -> 2^64 < Z.of_nat cfuel ->
  volume_shows q D kids -> new_dest E (w_fs w) dest P -> paths_short dest kids ->
  part_of_tree (w_fs w) P (TDir kids) -> replaceable clobber (w_fs w) P (TDir kids) ->
  exists fuel0, forall fuel, (fuel0 <= fuel)%nat ->
  exists w' v evs, doRecoverFiles fuel cfuel E dev q clobber dest w = (w', Ret (true, v)) /\
    holds_tree (w_fs w') P (TDir kids) /\
    (forall a b, P = a ++ b -> look (w_fs w') a = Some NDir) /\
    (forall p, ~ at_or_below P p -> ~ at_or_below p P -> look (w_fs w') p = look (w_fs w) p) /\
    w_log w' = evs ++ w_log w /\ (forall k s, ~ In (EvWarn k s) evs).
Proof.
  intros HE HG HDl Hcf HV HD HPS HF HR. destruct (new_oks _ _ _ _ _ _ _ HV HD HPS) as [Hok Hoks]. destruct (new_facts _ _ _ _ HD) as (Hnd & Hne & Hsh & EP & Hpa & Hln).
  destruct HD as (W & _ & _ & HP & HLB & HLn & _).
  destruct (full_rest E dest q D Hnd Hne cfuel dev clobber HE HG HDl Hcf kids HV) as (f0 & REST). exists f0. intros fuel Hf.
  destruct (mk_loop E (if is_abs dest then [] else e_cwd E) HE (S (length dest)) dest w ltac:(lia) eq_refl Hpa Hln Hnd W HLB ltac:(rewrite <- HP; exact HLn)) as (w1 & EM & M1 & M2). rewrite <- HP in M1, M2.
  change (MkdirAll E dest w = (w1, Ret true)) in EM.
  assert (HA1 : anc (w_fs w1) P) by (intros a b Hab _; exact (M1 a b Hab)). assert (HD1 : look (w_fs w1) P = Some NDir) by (apply (M1 P []); rewrite app_nil_r; reflexivity).
  (* below the destination nothing has changed, except that it is there *)
  assert (HS : forall r, r <> [] -> look (w_fs w1) (P ++ r) = look (w_fs w) (P ++ r)).
  { intros r Hr. apply M2. intros (x & Hx). apply Hr. rewrite <- app_assoc in Hx. rewrite <- (app_nil_r P) in Hx at 1. apply app_inv_head in Hx. symmetry in Hx. apply app_eq_nil in Hx. apply Hx. }
  assert (HF1 : part_of_tree (w_fs w1) P (TDir kids)).
  { intros r nd H. destruct r as [|c r]; [rewrite app_nil_r, HD1 in H; injection H as <-; exists NDir; auto|]. rewrite HS in H by discriminate. exact (HF _ _ H). }
  assert (HR1 : replaceable clobber (w_fs w1) P (TDir kids)).
  { destruct HR as [HR|HR]; [left; exact HR|right]. intros r nd H. destruct r as [|c r]; [rewrite app_nil_r, HD1 in H; injection H as <-; reflexivity|]. rewrite HS in H by discriminate. exact (HR _ _ H). }
  rewrite EP in HA1, HD1, HF1, HR1. destruct (REST fuel w1 Hf HA1 HD1 Hok Hoks HF1 HR1) as (w' & v & H1 & H2 & H3 & H4). rewrite <- EP in *.
  destruct (logs_trans _ w w1 w' (silent_mkall _ _ _ _ _ EM) H4) as (evs & L1 & L2). exists w', v, evs.
  split; [unfold doRecoverFiles; unfold bind at 1; rewrite EM; exact H1|]. split; [exact H2|]. split; [|split; [|split; [exact L1|intros k s Hin; rewrite Forall_forall in L2; exact (L2 _ Hin)]]].
  - intros a b Hab. destruct b as [|c b]; [rewrite app_nil_r in Hab; subst a; specialize (H2 []); rewrite app_nil_r in H2; exact H2|]. rewrite H3; [exact (M1 _ _ Hab)|]. apply (strict_above a (c :: b)); [exact Hab|discriminate].
  - intros p Hp Hp'. rewrite H3 by exact Hp. apply M2. intros X. apply Hp'. exact X.
Qed.
Print Assumptions C67_new_destination.

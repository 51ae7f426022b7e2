(** Recover on a well-formed tree without faults: the whole tree is restored. *)
From Verif Require Import Go GoProofs Layout KeyFmt Bolt Store Fs Recover RecoverProofs SpecFs SpecContent PathProofs PropsRecoverPaths FsProofs PropsRecoverSafe PropsRecoverDfs PropsRecoverFile PropsRecoverLink SpecTree TreeProofs TreeRun.
From Coq Require Import ZifyBool ZifyNat ZifyN.
Ltac Zify.zify_post_hook ::= Z.div_mod_to_equations.

Lemma byte_ext a b : zlen a = zlen b -> (forall j, 0 <= j < zlen b -> byte_at a j = byte_at b j) -> a = b.
Proof.
  intros HL H. apply (nth_ext _ _ x00 x00); [unfold zlen in HL; lia|]. intros n Hn. specialize (H (Z.of_nat n)). unfold byte_at in H. rewrite !Nat2Z.id in H. apply H. unfold zlen in *. lia.
Qed.
(** no warning *)
Definition silent (e : event) : Prop := match e with EvWarn _ _ => False | _ => True end.
Lemma silent_mkall E s : keeps (logs silent) (MkdirAll E s).
Proof. apply (keeps_mkall (logs silent) (logs_refl _) (logs_trans _) E (fun _ => True)); auto; intros; apply logs_syscall; intros; exact Logic.I. Qed.
Lemma silent_file cfuel E dev q cl o i s : keeps (logs silent) (recoverFile cfuel E dev q cl o i s).
Proof. apply keeps_file; [apply logs_refl|apply logs_trans|intros; apply logs_read; intros; exact Logic.I| | | |]; intros; apply logs_syscall; intros; exact Logic.I. Qed.
Lemma silent_link E dev q cl o i s : keeps (logs silent) (recoverSymlink E dev q cl o i s).
Proof. apply keeps_symlink; [apply logs_refl|apply logs_trans|intros; apply logs_read; intros; exact Logic.I| | |]; intros; apply logs_syscall; intros; exact Logic.I. Qed.
Lemma no_calm E : no_faults E -> calm E.
Proof. intros H n k m _. rewrite H. discriminate. Qed.

Lemma mkall_nocrash E : no_faults E -> forall s w w1, MkdirAll E s w = (w1, OCrash) -> False.
Proof.
  intros HE s. unfold MkdirAll. generalize (S (length s)) as f. intros f. revert s.
  assert (HS : forall A k s (eff : fs -> fs * option A) part w w1, syscall E k s eff part w = (w1, OCrash) -> False) by (intros A k s eff part w w1 H; unfold syscall in H; rewrite HE in H; destruct (eff (w_fs w)); discriminate).
  induction f as [|f IHf]; intros s w w1 H; cbn [MkdirAll_loop] in H; [discriminate|]. unfold bind at 1, Stat at 1 in H.
  match type of H with context [syscall ?a ?b ?c ?d ?e ?g] => destruct (syscall a b c d e g) as [w2 o2] eqn:E2 end. destruct o2 as [k| | |]; try discriminate H; [|exact (HS _ _ _ _ _ _ _ E2)].
  destruct k as [[]|]; try discriminate H. unfold bind at 1 in H. destruct (match parent_of s with Some p => MkdirAll_loop f E p | None => ret true end w2) as [w3 o3] eqn:E3.
  destruct o3 as [ok| | |]; try discriminate H; [|destruct (parent_of s); [exact (IHf _ _ _ E3)|discriminate E3]]. destruct ok; [|discriminate H]. unfold bind at 1, Mkdir at 1 in H.
  match type of H with context [syscall ?a ?b ?c ?d ?e ?g] => destruct (syscall a b c d e g) as [w4 o4] eqn:E4 end. destruct o4 as [k| | |]; try discriminate H; [|exact (HS _ _ _ _ _ _ _ E4)].
  destruct k; [discriminate H|]. unfold bind at 1, Lstat at 1 in H. match type of H with context [syscall ?a ?b ?c ?d ?e ?g] => destruct (syscall a b c d e g) as [w5 o5] eqn:E5 end. destruct o5; try discriminate H. exact (HS _ _ _ _ _ _ _ E5).
Qed.
Lemma repl_same c F F' P t : (forall r, look F' (P ++ r) = look F (P ++ r)) -> replaceable c F P t -> replaceable c F' P t.
Proof. intros HE [H|H]; [left; exact H|right]. intros r nd Hr. rewrite HE in Hr. exact (H r nd Hr). Qed.
Lemma kids_hold F P kids : look F P = Some NDir -> (forall n t, In (n, t) kids -> holds_tree F (P ++ [n]) t) -> (forall n r, ~ In n (map fst kids) -> look F (P ++ n :: r) = None) -> holds_tree F P (TDir kids).
Proof.
  intros HP HK HN r. destruct r as [|n r]; [rewrite app_nil_r; exact HP|]. cbn [tree_at]. destruct (pick kids n) as [t|] eqn:EP.
  - rewrite <- (HK n t (pick_In _ _ _ EP) r), <- app_assoc. reflexivity.
  - apply HN. intros Hin. apply (proj2 (pick_names kids n) Hin EP).
Qed.

Lemma repl_sub c F P kids : NoDup (map fst kids) -> replaceable c F P (TDir kids) -> forall n t, In (n, t) kids -> replaceable c F (P ++ [n]) t.
Proof.
  intros HN [HR|HR] n t Hin; [left; exact HR|right]. intros r nd Hr. rewrite <- app_assoc in Hr. specialize (HR _ _ Hr). cbn [app tree_at] in HR. rewrite (In_pick _ _ _ HN Hin) in HR. exact HR.
Qed.
(** what is there without --clobber is left alone, and is right *)
Lemma skip_file cfuel E dev q owner i s w p c : no_faults E -> resolve (w_fs w) (e_cwd E) true s = Some p -> look (w_fs w) p = Some (NFile c) ->
  exists w', recoverFile cfuel E dev q false owner i s w = (w', Ret true) /\ w_fs w' = w_fs w.
Proof.
  intros HE HR HL. unfold recoverFile, bind at 1, Stat, syscall. rewrite HE. unfold sys_stat. rewrite HR, HL. cbn [is_some andb negb ret]. eexists. split; reflexivity.
Qed.
Lemma skip_link E dev q owner i s w p t : no_faults E -> resolve (w_fs w) (e_cwd E) false s = Some p -> look (w_fs w) p = Some (NLink t) ->
  exists w', recoverSymlink E dev q false owner i s w = (w', Ret true) /\ w_fs w' = w_fs w.
Proof.
  intros HE HR HL. unfold recoverSymlink, bind at 1, Lstat, syscall. rewrite HE. unfold sys_stat. rewrite HR, HL. cbn [is_some andb negb ret]. eexists. split; reflexivity.
Qed.

Section Full.
  Variables (E : env) (dest : list byte) (q : queries) (Dv : list byte).
  Hypothesis Hnd : ~ In [dot; dot] (comps dest).
  Hypothesis Hne : dest <> [].
  Notation D0 := (D0 E dest).
  Notation named := (named dest).
  Notation okp := (okp dest).
  Notation oks := (oks dest).
  Variables (cfuel : nat) (dev : readerAt) (clobber : bool).
  Hypothesis HE : no_faults E.
  Hypothesis HG : good_device Dv dev.
  Hypothesis HDl : zlen Dv < 2^63.
  Hypothesis Hcf : 2^64 < Z.of_nat cfuel.

  Lemma full_file owner i s cs c w : named s cs -> okp cs -> anc (w_fs w) (D0 ++ cs) -> part_of_tree (w_fs w) (D0 ++ cs) (TFile c) -> replaceable clobber (w_fs w) (D0 ++ cs) (TFile c) ->
    file_shows q Dv owner i c ->
    exists w', recoverFile cfuel E dev q clobber owner i s w = (w', Ret true) /\ holds_tree (w_fs w') (D0 ++ cs) (TFile c).
  Proof using Hnd HE HG HDl Hcf.
    intros HN Hok HA HF HR (xs & it & H1 & H2 & H3 & H4 & H5 & H6 & H7). destruct (fit_leaf _ _ (TFile c) ltac:(discriminate) HF) as [HP HB]. destruct (Hok s HN) as [O1 O2].
    assert (HL : forall t, look (w_fs w) (D0 ++ cs) <> Some (NLink t)) by (intros t; destruct HP as [->|(nd & -> & HK)]; [discriminate|intros A; injection A as ->; discriminate HK]).
    pose proof (resolve_named E dest Hnd (w_fs w) true s cs HN HA (fun _ => HL)) as HRs. rewrite O1, O2 in HRs. cbn [andb negb] in HRs.
    assert (HP' : (clobber = false /\ look (w_fs w) (D0 ++ cs) = Some (NFile c)) \/ look (w_fs w) (D0 ++ cs) = None \/ exists c0, clobber = true /\ look (w_fs w) (D0 ++ cs) = Some (NFile c0)).
    { destruct HP as [HP|(nd & HP & HK)]; [right; left; exact HP|]. destruct nd as [c0| |]; try discriminate HK. clear -HP HR. destruct clobber; [right; right; exists c0; auto|left]. destruct HR as [HR|HR]; [discriminate HR|].
      specialize (HR [] (NFile c0)). rewrite app_nil_r in HR. specialize (HR HP). cbn [tree_at top_node] in HR. split; [reflexivity|]. rewrite HP. congruence. }
    destruct HP' as [(HcF & HP')|HP'].
    { destruct (skip_file cfuel E dev q owner i s w _ c HE HRs HP') as (w' & HRun & HFS). exists w'. rewrite HcF. split; [exact HRun|]. intros r. rewrite HFS. destruct r as [|x r]; [rewrite app_nil_r; exact HP'|rewrite HB by discriminate; reflexivity]. }
    destruct (C48_recovers cfuel E dev Dv q clobber owner i s w xs it (zlen c) _ HE HG HDl Hcf HRs HP' H1 H2 H3 H4 H5 H6) as (w' & c' & HRun & HL' & Hlen & Hby & Hoth).
    exists w'. split; [exact HRun|]. assert (c' = c) as -> by (apply byte_ext; [exact Hlen|intros j Hj; rewrite Hby by lia; rewrite H7 by lia; reflexivity]).
    intros r. destruct r as [|x r]; [rewrite app_nil_r; exact HL'|]. rewrite Hoth by (apply ext_ne; discriminate). rewrite HB by discriminate. reflexivity.
  Qed.
  Lemma full_link owner i s cs t w : named s cs -> okp cs -> anc (w_fs w) (D0 ++ cs) -> part_of_tree (w_fs w) (D0 ++ cs) (TLink t) -> replaceable clobber (w_fs w) (D0 ++ cs) (TLink t) ->
    link_shows q Dv owner i t ->
    exists w', recoverSymlink E dev q clobber owner i s w = (w', Ret true) /\ holds_tree (w_fs w') (D0 ++ cs) (TLink t).
  Proof using Hnd HE HG HDl.
    intros HN Hok HA HF HR (e & H1 & H2 & H3). destruct (fit_leaf _ _ (TLink t) ltac:(discriminate) HF) as [HP HB]. destruct (Hok s HN) as [O1 O2].
    pose proof (fun F HA => resolve_named E dest Hnd F false s cs HN HA ltac:(discriminate)) as HRs. rewrite O1, O2 in HRs. cbn [andb negb] in HRs.
    assert (HPq : (clobber = false /\ look (w_fs w) (D0 ++ cs) = Some (NLink t)) \/ (clobber = true \/ look (w_fs w) (D0 ++ cs) = None)).
    { destruct HP as [HP|(nd & HP & HK)]; [right; right; exact HP|]. destruct nd as [| |c0]; try discriminate HK. clear -HP HR. destruct clobber; [right; left; reflexivity|left]. destruct HR as [HR|HR]; [discriminate HR|].
      specialize (HR [] (NLink c0)). rewrite app_nil_r in HR. specialize (HR HP). cbn [tree_at top_node] in HR. split; [reflexivity|]. rewrite HP. congruence. }
    destruct HPq as [(HcF & HPq)|HPq].
    { destruct (skip_link E dev q owner i s w _ t HE (HRs _ HA) HPq) as (w' & HRun & HFS). exists w'. rewrite HcF. split; [exact HRun|]. intros r. rewrite HFS. destruct r as [|x r]; [rewrite app_nil_r; exact HPq|rewrite HB by discriminate; reflexivity]. }
    assert (HP' : look (w_fs w) (D0 ++ cs) = None \/ (clobber = true /\ (exists x, look (w_fs w) (D0 ++ cs) = Some (NFile x) \/ look (w_fs w) (D0 ++ cs) = Some (NLink x)) /\ resolve (del (w_fs w) (D0 ++ cs)) (e_cwd E) false s = Some (D0 ++ cs))).
    { destruct HP as [HP|(nd & HP & HK)]; [left; exact HP|]. right. destruct nd as [| |c0]; try discriminate HK. split; [|split].
      - destruct HPq as [HPq|HPq]; [exact HPq|congruence].
      - exists c0. right. exact HP.
      - apply HRs. intros a b Hab Hb. rewrite look_del by (intros X; rewrite X in HP; discriminate HP). destruct (cpath_dec (D0 ++ cs) a) as [Ea|]; [|exact (HA a b Hab Hb)].
        destruct (strict_above a b _ Hab Hb). rewrite <- Ea. apply below_self. }
    destruct (C52_recovers E dev Dv q clobber owner i s w _ e t HE HG HDl (HRs _ HA) H1 H2 H3 HP') as (w' & HRun & HL' & Hoth).
    exists w'. split; [exact HRun|]. intros r. destruct r as [|x r]; [rewrite app_nil_r; exact HL'|]. rewrite Hoth by (apply ext_ne; discriminate). rewrite HB by discriminate. reflexivity.
  Qed.

  Definition all_repl (F : fs) (P : cpath) (kids : entries) : Prop := forall n t, In (n, t) kids -> replaceable clobber F (P ++ [n]) t.
  Definition all_hold (F : fs) (P : cpath) (kids : entries) : Prop := forall n t, In (n, t) kids -> holds_tree F (P ++ [n]) t.
  Definition full_dir_stmt (o d : Z) (kids : entries) (ks : list (Z * Z)) : Prop := forall fuel s cs v w,
    named s cs -> anc (w_fs w) (D0 ++ cs) -> (look (w_fs w) (D0 ++ cs) = None \/ look (w_fs w) (D0 ++ cs) = Some NDir) -> all_fit (w_fs w) (D0 ++ cs) kids -> all_repl (w_fs w) (D0 ++ cs) kids ->
    look (w_fs w) D0 = Some NDir -> okp cs -> oks cs kids -> NoDup ks -> apart ks v -> (length ks <= fuel)%nat ->
    exists w' v', recoverDir fuel cfuel E dev q clobber o d s v w = (w', Ret (v', true)) /\ look (w_fs w') (D0 ++ cs) = Some NDir /\ all_hold (w_fs w') (D0 ++ cs) kids /\ logs silent w w'.
  Definition full_list_stmt (o : Z) (l : list (list byte * slice)) (kids : entries) (ks : list (Z * Z)) : Prop := forall fuel s cs v w,
    named s cs -> anc (w_fs w) (D0 ++ cs) -> look (w_fs w) (D0 ++ cs) = Some NDir -> all_fit (w_fs w) (D0 ++ cs) kids -> all_repl (w_fs w) (D0 ++ cs) kids ->
    oks cs kids -> NoDup ks -> apart ks v -> (length ks <= fuel)%nat ->
    exists w' v', items_loop (recoverDir fuel cfuel E dev q clobber) cfuel E dev q clobber o s l v w = (w', Ret v') /\ all_hold (w_fs w') (D0 ++ cs) kids /\ logs silent w w'.
  Lemma repl_others P n kids w w1 : only (P ++ [n]) w w1 -> ~ In n (map fst kids) -> all_repl (w_fs w) P kids -> all_repl (w_fs w1) P kids.
  Proof.
    clear. intros HO Hn HK m u Hm. apply (repl_same _ (w_fs w)); [|exact (HK m u Hm)]. intros r. apply HO. apply (sibling_apart P m n); [|apply below_app]. intros ->. apply Hn, in_map_iff. exists (n, u). auto.
  Qed.
  Lemma full_entry (m : M (list (Z * Z))) (rest : list (Z * Z) -> M (list (Z * Z))) cs n t kids ks1 ks2 v w w1 v1 :
    anc (w_fs w) (D0 ++ cs) -> look (w_fs w) (D0 ++ cs) = Some NDir -> all_fit (w_fs w) (D0 ++ cs) ((n, t) :: kids) -> all_repl (w_fs w) (D0 ++ cs) ((n, t) :: kids) -> ~ In n (map fst kids) ->
    m w = (w1, Ret v1) -> only ((D0 ++ cs) ++ [n]) w w1 -> holds_tree (w_fs w1) ((D0 ++ cs) ++ [n]) t -> logs silent w w1 -> joins ks1 v v1 ->
    NoDup (ks1 ++ ks2) -> apart (ks1 ++ ks2) v ->
    (anc (w_fs w1) (D0 ++ cs) -> look (w_fs w1) (D0 ++ cs) = Some NDir -> all_fit (w_fs w1) (D0 ++ cs) kids -> all_repl (w_fs w1) (D0 ++ cs) kids -> NoDup ks2 -> apart ks2 v1 ->
      exists w' v', rest v1 w1 = (w', Ret v') /\ only_kids (D0 ++ cs) (map fst kids) w1 w' /\ all_hold (w_fs w') (D0 ++ cs) kids /\ logs silent w1 w') ->
    exists w' v', (v1 <~ m ;; rest v1) w = (w', Ret v') /\ all_hold (w_fs w') (D0 ++ cs) ((n, t) :: kids) /\ logs silent w w'.
  Proof.
    clear. intros HA HP HK HRp Hn Hm HO HF HLg HJ HN Hap HR. destruct (only_kid_anc _ _ _ _ HO HA HP) as [HA1 HP1].
    assert (HN2 : NoDup ks2 /\ apart ks2 v1).
    { split; [clear -HN; induction ks1 as [|x ks1 IH]; [exact HN|]; inversion HN; auto|]. intros x Hx Hv. apply HJ in Hv as [Hv|Hv]; [|apply (Hap x); [apply in_or_app; right; exact Hx|exact Hv]].
      clear -HN Hx Hv. induction ks1 as [|y ks1 IH]; [destruct Hv|]. cbn [app] in HN. inversion HN as [|? ? A B]; subst. destruct Hv as [->|Hv]; [apply A, in_or_app; right; exact Hx|exact (IH B Hv)]. }
    destruct HN2 as [HN2 Hap2].
    destruct (HR HA1 HP1 (fit_others _ n kids w w1 HO Hn (fun x u Hx => HK x u (or_intror Hx))) (repl_others _ n kids w w1 HO Hn (fun x u Hx => HRp x u (or_intror Hx))) HN2 Hap2) as (w' & v' & G1 & G2 & G3 & G4).
    exists w', v'. split; [unfold bind; rewrite Hm; exact G1|]. split; [|exact (logs_trans _ _ _ _ HLg G4)]. intros m0 u [H|H]; [|exact (G3 m0 u H)]. injection H as <- <-.
    apply (tree_same (w_fs w1)); [|exact HF]. intros r. apply G2. intros m0 Hm0. apply (sibling_apart _ n m0); [|apply below_app]. intros ->. contradiction.
  Qed.
  Lemma full_all : (forall o d kids ks, dir_shows q Dv o d kids ks -> full_dir_stmt o d kids ks) /\ (forall o l kids ks, list_shows q Dv o l kids ks -> full_list_stmt o l kids ks).
  Proof using All.
    destruct (any_all E dest q (shown q Dv) Hnd Hne) as [ANYd ANYl]. pose proof (no_calm E HE) as HC. apply shows_mutind.
    - (* directory *)
      intros o d kids ks Hend HL IH. intros fuel s cs v w HN HA HTop HF HRp HD Hok Hoks HND Hap Hfu. destruct fuel as [|fuel]; [cbn [length] in Hfu; lia|]. cbn [recoverDir].
      replace (key_in (o, d) v) with false by (symmetry; destruct (key_in (o, d) v) eqn:EK; [|reflexivity]; apply key_in_In in EK; destruct (Hap (o, d)); [left; reflexivity|exact EK]).
      cbv zeta. destruct (mkall_calm E dest Hnd s cs w HC HN Hok HA HTop HD) as (w1 & r & HM & Hr).
      assert (r = Ret true) as -> by (destruct Hr as [Hr|Hr]; [exact Hr|]; subst r; destruct (mkall_nocrash E HE _ _ _ HM)).
      unfold bind at 1. rewrite HM. cbn [negb]. unfold bind at 1, emit at 1. unfold bind at 1, lift at 1. rewrite Hend.
      pose proof (Rm_mkall E dest _ s (named_upto E dest Hnd s cs HN) _ _ _ HM) as HRm. pose proof (Rm_only _ _ _ HA HRm) as HO1.
      assert (Hother : forall p, p <> D0 ++ cs -> look (w_fs w1) p = look (w_fs w) p).
      { intros p Hp. destruct (HRm HA) as [->|[H1 ->]]; [reflexivity|]. apply look_put_other; [exact Hp|exact (none_root _ _ H1)]. }
      assert (Hk : forall n r, look (w_fs w1) (((D0 ++ cs) ++ [n]) ++ r) = look (w_fs w) (((D0 ++ cs) ++ [n]) ++ r)) by (intros n r; apply Hother; rewrite <- app_assoc; apply ext_ne; discriminate).
      assert (HF1 : all_fit (w_fs w1) (D0 ++ cs) kids) by (intros n t Hin; apply (fit_same (w_fs w)); [apply Hk|exact (HF n t Hin)]).
      assert (HR1 : all_repl (w_fs w1) (D0 ++ cs) kids) by (intros n t Hin; apply (repl_same _ (w_fs w)); [apply Hk|exact (HRp n t Hin)]).
      assert (HD1 : look (w_fs w1) (D0 ++ cs) = Some NDir). { apply (mkall_true E dest Hnd s cs w); [exact HN|exact HA| |exact HM]. intros t. destruct HTop as [->| ->]; discriminate. }
      set (w1' := mkWorld (w_fs w1) (w_ops w1) (EvList o d :: w_log w1)). assert (HA1 : anc (w_fs w1') (D0 ++ cs)) by exact (anc_only _ _ _ HO1 HA). inversion HND as [|? ? N1 N2]; subst.
      assert (Hap1 : apart ks ((o, d) :: v)). { intros x Hx [<-|Hx']; [contradiction|]. apply (Hap x); [right; exact Hx|exact Hx']. }
      cbn [length] in Hfu. destruct (IH fuel s cs ((o, d) :: v) w1' HN HA1 HD1 HF1 HR1 Hoks N2 Hap1 ltac:(lia)) as (w' & v' & G1 & G2 & G3). exists w', v'. unfold bind at 1. rewrite G1.
      destruct (ANYl _ _ _ _ HL _ _ _ _ _ _ _ _ _ _ HN HA1 HD1 HF1 G1) as (K1 & _ & _). split; [reflexivity|]. split; [rewrite K1; [exact HD1|intros n _; apply kid_not_parent]|]. split; [exact G2|].
      apply (logs_trans _ w w1 w'); [exact (silent_mkall _ _ _ _ _ HM)|]. apply (logs_trans _ w1 w1' w'); [exists [EvList o d]; split; [reflexivity|repeat constructor]|exact G3].
    - intros o. intros fuel s cs v w _ _ _ _ _ _ _ _ _. exists w, v. cbn [items_loop]. split; [reflexivity|]. split; [intros n t []|apply logs_refl].
    - (* file *)
      intros o k di l n loc c kids ks Hs Hr Hfs Hn Hin HLs IH. intros fuel s cs v w HN HA HP HK HRp Hoks HND Hap Hfu. cbn [items_loop].
      rewrite (classify_file o s di n loc Hs Hr Hn). unfold bind at 1, lift at 1.
      pose proof (HK n _ (or_introl eq_refl)) as HKn. pose proof (HRp n _ (or_introl eq_refl)) as HRn. pose proof (named_join dest Hnd Hne s cs n HN (proj1 Hn)) as HNn.
      pose proof (anc_child _ _ n HA HP) as HAn. rewrite <- app_assoc in HKn, HAn, HRn. assert (Hokn : okp (cs ++ [n])) by (apply (Hoks n _ [] (or_introl eq_refl)); discriminate).
      destruct (full_file o (ObjectID loc) (Join s n) _ c w HNn Hokn HAn HKn HRn Hfs) as (w1 & HRun & HH). destruct (any_file E dest q Hnd _ _ _ _ _ _ _ _ _ _ _ HNn HAn HKn HRun) as [HO1 _]. rewrite app_assoc in HO1, HH.
      refine (full_entry _ _ cs n (TFile c) kids [] ks v w w1 v HA HP HK HRp Hin _ HO1 HH (silent_file _ _ _ _ _ _ _ _ _ _ _ HRun) _ HND Hap _).
      + unfold bind at 1. rewrite HRun. reflexivity.
      + intros x. cbn [In]. tauto.
      + intros HA1 HP1 HK1 HR1 HN2 Hap2. assert (Hoks2 : oks cs kids) by (intros m0 u r Hm0; apply Hoks; right; exact Hm0).
        destruct (IH fuel s cs v w1 HN HA1 HP1 HK1 HR1 Hoks2 HN2 Hap2 Hfu) as (w' & v' & G1 & G2 & G3). exists w', v'. split; [exact G1|]. split; [exact (proj1 (ANYl _ _ _ _ HLs _ _ _ _ _ _ _ _ _ _ HN HA1 HP1 HK1 G1))|auto].
    - (* link *)
      intros o k di l n loc c kids ks Hs Hr Hfs Hn Hin HLs IH. intros fuel s cs v w HN HA HP HK HRp Hoks HND Hap Hfu. cbn [items_loop].
      rewrite (classify_link o s di n loc Hs Hr Hn). unfold bind at 1, lift at 1.
      pose proof (HK n _ (or_introl eq_refl)) as HKn. pose proof (HRp n _ (or_introl eq_refl)) as HRn. pose proof (named_join dest Hnd Hne s cs n HN (proj1 Hn)) as HNn.
      pose proof (anc_child _ _ n HA HP) as HAn. rewrite <- app_assoc in HKn, HAn, HRn. assert (Hokn : okp (cs ++ [n])) by (apply (Hoks n _ [] (or_introl eq_refl)); discriminate).
      destruct (full_link o (ObjectID loc) (Join s n) _ c w HNn Hokn HAn HKn HRn Hfs) as (w1 & HRun & HH). destruct (any_link E dest q Hnd _ _ _ _ _ _ _ _ _ _ HNn HAn HKn HRun) as [HO1 _]. rewrite app_assoc in HO1, HH.
      refine (full_entry _ _ cs n (TLink c) kids [] ks v w w1 v HA HP HK HRp Hin _ HO1 HH (silent_link _ _ _ _ _ _ _ _ _ _ HRun) _ HND Hap _).
      + unfold bind at 1. rewrite HRun. reflexivity.
      + intros x. cbn [In]. tauto.
      + intros HA1 HP1 HK1 HR1 HN2 Hap2. assert (Hoks2 : oks cs kids) by (intros m0 u r Hm0; apply Hoks; right; exact Hm0).
        destruct (IH fuel s cs v w1 HN HA1 HP1 HK1 HR1 Hoks2 HN2 Hap2 Hfu) as (w' & v' & G1 & G2 & G3). exists w', v'. split; [exact G1|]. split; [exact (proj1 (ANYl _ _ _ _ HLs _ _ _ _ _ _ _ _ _ _ HN HA1 HP1 HK1 G1))|auto].
    - (* subdirectory *)
      intros o k di l n o' d' sub kids ks1 ks2 Hs Hr Hsub IHs Hn Hin HLs IH. intros fuel s cs v w HN HA HP HK HRp Hoks HND Hap Hfu. cbn [items_loop].
      rewrite (classify_dir o s di n o' d' Hs Hr). unfold bind at 1, lift at 1. rewrite app_length in Hfu.
      pose proof (HK n _ (or_introl eq_refl)) as HKn. pose proof (HRp n _ (or_introl eq_refl)) as HRn. pose proof (named_join dest Hnd Hne s cs n HN (proj1 Hn)) as HNn.
      pose proof (anc_child _ _ n HA HP) as HAn. rewrite <- app_assoc in HKn, HAn, HRn. assert (Hokn : okp (cs ++ [n])) by (apply (Hoks n _ [] (or_introl eq_refl)); discriminate).
      assert (HNs : NoDup (map fst sub)) by (inversion Hsub; eapply list_nodup; eassumption). pose proof (whole_fit _ _ _ HNs HKn) as HFs.
      assert (HRs : all_repl (w_fs w) (D0 ++ cs ++ [n]) sub). exact (repl_sub _ _ _ _ HNs HRn).
      assert (Hoksn : oks (cs ++ [n]) sub).
      { intros m u r Hm Hr0. replace ((cs ++ [n]) ++ m :: r) with (cs ++ n :: m :: r) by (rewrite <- app_assoc; reflexivity). apply (Hoks n (TDir sub) (m :: r) (or_introl eq_refl)). cbn [tree_at]. rewrite (In_pick _ _ _ HNs Hm). exact Hr0. }
      assert (N1 : NoDup ks1 /\ apart ks1 v).
      { split; [clear -HND; induction ks1 as [|x ks1 IH]; [constructor|]; inversion HND as [|? ? A B]; subst; constructor; [intros Hx; apply A, in_or_app; left; exact Hx|exact (IH B)]|]. intros x Hx. apply Hap, in_or_app. left. exact Hx. }
      destruct N1 as [N1 Hap1].
      destruct (IHs fuel (Join s n) (cs ++ [n]) v w HNn HAn (fit_top _ _ _ HKn) HFs HRs (d0_dir _ _ _ _ HA HP) Hokn Hoksn N1 Hap1 ltac:(lia)) as (w1 & v1 & HRun & HH1 & HH2 & HLg).
      destruct (ANYd _ _ _ _ Hsub _ _ _ _ _ _ _ _ _ _ HNn HAn (fit_top _ _ _ HKn) HFs HRun) as (K1 & K2 & K3 & K4). destruct (K4 HC (d0_dir _ _ _ _ HA HP) Hokn Hoksn N1 Hap1 _ _ eq_refl) as [_ HJ].
      destruct (dir_as_whole _ _ _ _ HKn HNs K1 K2 K3) as [HO1 _].
      assert (HH : holds_tree (w_fs w1) (D0 ++ cs ++ [n]) (TDir sub)).
      { apply kids_hold; [exact HH1|exact HH2|]. intros m r Hm. rewrite K1; [apply (proj2 (fit_kids _ _ _ HKn)); destruct (pick sub m) eqn:EP; [|reflexivity]; destruct Hm; apply pick_names; rewrite EP; discriminate|apply ext_ne; discriminate|].
        intros m' Hm' [r' He]. rewrite <- (app_assoc (D0 ++ cs ++ [n]) [m'] r') in He. cbn [app] in He. apply siblings in He. subst m'. contradiction. }
      rewrite app_assoc in HO1, HH.
      refine (full_entry _ _ cs n (TDir sub) kids ks1 ks2 v w w1 v1 HA HP HK HRp Hin _ HO1 HH HLg HJ HND Hap _).
      + unfold bind at 1. rewrite HRun. reflexivity.
      + intros HA1 HP1 HK1 HR1 HN2 Hap2. assert (Hoks2 : oks cs kids) by (intros m0 u r Hm0; apply Hoks; right; exact Hm0).
        destruct (IH fuel s cs v1 w1 HN HA1 HP1 HK1 HR1 Hoks2 HN2 Hap2 ltac:(lia)) as (w' & v' & G1 & G2 & G3). exists w', v'. split; [exact G1|]. split; [exact (proj1 (ANYl _ _ _ _ HLs _ _ _ _ _ _ _ _ _ _ HN HA1 HP1 HK1 G1))|auto].
    - (* other *)
      intros o k di l n t loc kids ks Hs Hr H1 H2 H3 _ IH. intros fuel s cs v w HN HA HP HK HRp Hoks HND Hap Hfu. cbn [items_loop].
      rewrite (classify_other o s di n t loc Hs Hr H1 H2 H3). unfold bind at 1, lift at 1. unfold bind at 1, ret at 1. exact (IH fuel s cs v w HN HA HP HK HRp Hoks HND Hap Hfu).
  Qed.
End Full.

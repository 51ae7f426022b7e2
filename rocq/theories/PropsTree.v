(** C67, C51: recover on a volume whose index describes a tree. *)
From Verif Require Import Go GoProofs Layout KeyFmt Bolt Store ToString Fs Recover RecoverProofs SpecFs SpecContent PathProofs PropsRecoverPaths FsProofs PropsRecoverSafe PropsRecoverDfs PropsRecoverFile PropsRecoverLink SpecTree TreeProofs TreeRun TreeFull.
From Coq Require Import ZifyBool ZifyNat ZifyN.
Ltac Zify.zify_post_hook ::= Z.div_mod_to_equations.

(** ** names *)
Definition fits (c : list byte) : Prop := plain c /\ zlen c <= 255.
Lemma dec_short o : zlen (dec o) <= 20.
Proof.
  assert (G : forall f n acc, zlen (dec_loop f n acc) <= Z.of_nat f + zlen acc).
  { induction f as [|f IH]; intros n acc; cbn [dec_loop]; [lia|]. destruct (n <? 10); [rewrite zlen_cons; lia|]. specialize (IH (n / 10) (digit_char (n mod 10) :: acc)). rewrite zlen_cons in IH. lia. }
  specialize (G 20%nat o []). unfold dec. change (zlen []) with 0 in G. lia.
Qed.
Lemma subvol_fits k : fits (subvol_prefix ++ dec (ObjectID (ik_Key k))).
Proof. split; [apply subvol_name_plain; apply be_decode_range|]. rewrite zlen_app. pose proof (dec_short (ObjectID (ik_Key k))). change (zlen subvol_prefix) with 7. lia. Qed.
Definition deep_ok (t : tree) : Prop := forall r, tree_at t r <> None -> Forall fits r.
Definition kids_deep (kids : entries) : Prop := forall n t, In (n, t) kids -> fits n /\ deep_ok t.
Lemma deep_dir kids : kids_deep kids -> deep_ok (TDir kids).
Proof.
  intros H r Hr. destruct r as [|n r]; [constructor|]. cbn [tree_at] in Hr. destruct (pick kids n) as [t|] eqn:EP; [|congruence]. destruct (H n t (pick_In _ _ _ EP)) as [A B]. constructor; [exact A|exact (B r Hr)].
Qed.
Lemma deep_leaf t : (forall k, t <> TDir k) -> deep_ok t.
Proof. intros Ht r Hr. destruct r; [constructor|]. destruct t; try (cbn in Hr; congruence). destruct (Ht kids eq_refl). Qed.
Lemma shows_deep q D : (forall o d kids ks, dir_shape q D o d kids ks -> kids_deep kids) /\ (forall o l kids ks, list_shape q D o l kids ks -> kids_deep kids).
Proof.
  assert (N : forall n, name_ok n -> fits n) by (intros n (A & _ & B); split; assumption).
  apply shows_mutind; auto.
  - intros _ n t [].
  - intros o k di l n loc c kids ks _ _ _ Hn _ _ IH m t [H|H]; [injection H as <- <-; split; [apply N; exact Hn|apply deep_leaf; discriminate]|exact (IH m t H)].
  - intros o k di l n loc c kids ks _ _ _ Hn _ _ IH m t [H|H]; [injection H as <- <-; split; [apply N; exact Hn|apply deep_leaf; discriminate]|exact (IH m t H)].
  - intros o k di l n o' d' sub kids ks1 ks2 _ _ _ IHs Hn _ _ IH m t [H|H]; [injection H as <- <-; split; [apply N; exact Hn|apply deep_dir; exact IHs]|exact (IH m t H)].
Qed.
Lemma subs_deep q D : forall l vis kids, subvols_shape q D l vis kids -> kids_deep kids /\ NoDup (map fst kids).
Proof.
  induction 1 as [|k d l vis kids H1 H2 IH|k d l vis o n sub ks kids -> -> H3 H4 H5 H6 H7 H8 IH]; [split; [intros n t []|constructor]|exact IH|]. destruct IH as [IH1 IH2]. split; [|constructor; assumption].
  intros m t [H|H]; [injection H as <- <-; split; [apply subvol_fits|apply deep_dir; exact (proj1 (shows_deep q D) _ _ _ _ H4)]|exact (IH1 m t H)].
Qed.

Section Volume.
  Variables (E : env) (dest : list byte) (q : queries) (Sh : ask).
  Hypothesis Hnd : ~ In [dot; dot] (comps dest).
  Hypothesis Hne : dest <> [].
  Hypothesis Hshort : Forall (fun c => zlen c <= 255) (comps dest).
  Notation D0 := (D0 E dest).
  Lemma okp_of cs : path_arg dest = true -> Forall fits cs -> path_arg (sub_path (Clean dest) cs) = true -> okp dest cs.
  Proof using Hnd Hshort.
    intros Hd HF HP s HN. destruct (named_comps dest Hnd s cs HN) as [HC _]. split; [destruct HN as [_ [[-> ->]| ->]]; assumption|]. rewrite HC, existsb_app. apply orb_false_iff.
    assert (G : forall l, Forall (fun c => zlen c <= 255) l -> existsb long_name l = false). { induction 1 as [|c l H1 H2 IH]; [reflexivity|]. cbn [existsb]. rewrite IH. unfold long_name. lia. }
    split; apply G; [exact Hshort|]. revert HF. apply Forall_impl. intros c [_ H]. exact H.
  Qed.
  Lemma named_dest : named dest dest [].
  Proof. split; [constructor|left; auto]. Qed.

  (** the subvolumes that no directory names *)
  Lemma any_subs : forall l vis extra, subvols_shape q Sh l vis extra -> forall fuel cfuel dev clobber fin v w w' out,
    (forall x, In x v <-> In x vis) -> calm E -> anc (w_fs w) D0 -> look (w_fs w) D0 = Some NDir -> all_fit (w_fs w) D0 extra -> oks dest [] extra ->
    subvols_loop fuel cfuel E dev q clobber dest l fin v w = (w', out) -> only_kids D0 (map fst extra) w w' /\ all_fit (w_fs w') D0 extra.
  Proof using Hnd Hne.
    destruct (any_all E dest q Sh Hnd Hne) as [ANY _].
    induction 1 as [vis|k d l vis kids H1 H2 IH|k d l vis o n sub ks kids Ho Hn H3 H4 H5 H6 H7 H8 IH]; intros fuel cfuel dev clobber fin v w w' out Hv HC HA HD HF Hok H; cbn [subvols_loop] in H.
    - unfold bind, lift, ret in H. destruct fin; injection H as <- _; (split; [intros p _; reflexivity|exact HF]).
    - cbv zeta in H. apply Hv in H1. apply key_in_In in H1. rewrite H1 in H. exact (IH _ _ _ _ _ _ _ _ _ Hv HC HA HD HF Hok H).
    - cbv zeta in H. rewrite <- Ho in H. destruct (key_in (o, FirstFreeObjectID) v) eqn:EK; [apply key_in_In, Hv in EK; contradiction|].
      match type of H with bind ?m ?f w = _ => destruct (m w) as [w1 o1] eqn:EA end.
      assert (EA' : (a <~ recoverDir fuel cfuel E dev q clobber o FirstFreeObjectID (subvol_dest dest o) v ;; _ <~ (if snd a : bool then ret tt else emit (EvWarn WDir (subvol_dest dest o))) ;; ret (fst a)) w = (w1, o1)).
      { rewrite <- EA. unfold bind. destruct (recoverDir fuel cfuel E dev q clobber o FirstFreeObjectID (subvol_dest dest o) v w) as [w0 [[v0 b0]| | |]]; reflexivity. }
      apply (act_cases _ WDir (subvol_dest dest o) snd fst) in EA' as (w0 & o0 & ER & HF0 & HO0). unfold subvol_dest in ER. rewrite <- Hn in ER.
      assert (Hpl : plain n) by (rewrite Hn, Ho; apply subvol_fits). pose proof (named_join dest Hnd Hne dest [] n named_dest Hpl) as HNn. cbn [app] in HNn.
      pose proof (HF n _ (or_introl eq_refl)) as HKn. pose proof (anc_child _ _ n HA HD) as HAn. assert (HNs : NoDup (map fst sub)) by (inversion H4; eapply list_nodup; eassumption).
      destruct (ANY _ _ _ _ H4 _ _ _ _ _ _ _ _ _ _ HNn HAn (fit_top _ _ _ HKn) (whole_fit _ _ _ HNs HKn) ER) as (K1 & K2 & K3 & K4). destruct (dir_as_whole _ _ _ _ HKn HNs K1 K2 K3) as [HO1 HF1].
      assert (HO1' : only (D0 ++ [n]) w w1) by (intros p Hp; rewrite HF0; apply HO1; exact Hp). rewrite <- HF0 in HF1.
      assert (HFr : all_fit (w_fs w1) D0 kids) by (apply (fit_others _ n kids w); [exact HO1'|exact H7|intros m u Hm; apply HF; right; exact Hm]). destruct (only_kid_anc _ _ _ _ HO1' HA HD) as [HA1 HD1].
      unfold bind in H. unfold bind in EA. rewrite EA in H. destruct o1 as [v1| | |]; [|injection H as <- _; exact (any_step D0 n (TDir sub) kids w w1 w1 HO1' HF1 H7 (fun p _ => eq_refl) HFr)..].
      destruct o0 as [[v0 ok]| | |]; [|destruct (HO0 _ eq_refl)..]. injection HO0 as ->. cbn [fst] in *.
      assert (Hok1 : okp dest [n]) by (apply (Hok n (TDir sub) []); [left; reflexivity|discriminate]).
      assert (Hoks1 : oks dest [n] sub). { intros m u r Hm Hr. apply (Hok n (TDir sub) (m :: r)); [left; reflexivity|]. cbn [tree_at]. rewrite (In_pick _ _ _ HNs Hm). exact Hr. }
      assert (Hap : apart ks v) by (intros x Hx Hx'; apply Hv in Hx'; exact (H5 x Hx Hx')). destruct (K4 HC HD Hok1 Hoks1 H6 Hap _ _ eq_refl) as [_ HJ].
      assert (Hv1 : forall x, In x v0 <-> In x (ks ++ vis)) by (intros x; rewrite (HJ x), in_app_iff, (Hv x); tauto).
      destruct (IH _ _ _ _ _ _ _ _ _ Hv1 HC HA1 HD1 HFr (fun m u r Hm => Hok m u r (or_intror Hm)) H) as [G1 G2]. exact (any_step D0 n (TDir sub) kids w w1 w' HO1' HF1 H7 G1 G2).
  Qed.
  (** a directory that is there *)
  Lemma mkall_there w w' r : anc (w_fs w) D0 -> look (w_fs w) D0 = Some NDir -> MkdirAll E dest w = (w', r) -> w_fs w' = w_fs w.
  Proof using Hnd.
    intros HA HD H. pose proof (named_upto E dest Hnd dest [] named_dest) as HU. rewrite app_nil_r in HU. destruct (Rm_mkall E dest _ dest HU _ _ _ H HA) as [HE|[HE _]]; [exact HE|congruence].
  Qed.
  Lemma app_fit F P a b : all_fit F P (a ++ b) <-> all_fit F P a /\ all_fit F P b.
  Proof.
    split; [intros H; split; intros n t Hin; apply H, in_or_app; auto|]. intros [H1 H2] n t Hin. apply in_app_or in Hin as [Hin|Hin]; auto.
  Qed.
  Lemma nodup_app_names (a b : entries) : NoDup (map fst a) -> NoDup (map fst b) -> (forall n, In n (map fst a) -> ~ In n (map fst b)) -> NoDup (map fst (a ++ b)).
  Proof.
    intros Ha Hb Hab. rewrite map_app. induction (map fst a) as [|x l IH]; [exact Hb|]. cbn [app]. inversion Ha as [|? ? H1 H2]; subst. constructor; [|apply IH; [exact H2|intros n Hn; apply Hab; right; exact Hn]].
    intros H. apply in_app_or in H as [H|H]; [contradiction|]. exact (Hab x (or_introl eq_refl) H).
  Qed.
  (** the command once the destination is there *)
  Definition rest (fuel cfuel : nat) (dev : readerAt) (clobber : bool) : M (bool * list (Z * Z)) :=
    ' (v, ok) <~ recoverDir fuel cfuel E dev q clobber FSTreeObjectID FirstFreeObjectID dest [] ;;
    _ <~ (if ok : bool then ret tt else emit (EvWarn WDir dest)) ;;
    v <~ subvols_loop fuel cfuel E dev q clobber dest (st_items (q_subvolumes q)) (st_end (q_subvolumes q)) v ;;
    ret (true, v).
  Lemma any_rest kids fuel cfuel dev clobber w w' out : volume_shape q Sh kids -> calm E -> anc (w_fs w) D0 -> look (w_fs w) D0 = Some NDir ->
    okp dest [] -> oks dest [] kids -> part_of_tree (w_fs w) D0 (TDir kids) ->
    rest fuel cfuel dev clobber w = (w', out) -> only D0 w w' /\ part_of_tree (w_fs w') D0 (TDir kids) /\ look (w_fs w') D0 = Some NDir.
  Proof using Hnd Hne.
    intros (main & ks & extra & V1 & V2 & V3 & V4 & -> & V6) HC HA HD Hok0 Hoks HF H. destruct (any_all E dest q Sh Hnd Hne) as [ANY _].
    assert (HNm : NoDup (map fst main)) by (inversion V1; eapply list_nodup; eassumption). assert (HNe : NoDup (map fst extra)) by exact (proj2 (subs_deep _ _ _ _ _ V3)).
    pose proof (nodup_app_names _ _ HNm HNe V6) as HND. pose proof (whole_fit _ _ _ HND HF) as HFA. apply app_fit in HFA as [HFm HFe].
    assert (Done : forall w1, (forall p, (forall n, In n (map fst (main ++ extra)) -> ~ at_or_below (D0 ++ [n]) p) -> look (w_fs w1) p = look (w_fs w) p) -> all_fit (w_fs w1) D0 (main ++ extra) ->
      only D0 w w1 /\ part_of_tree (w_fs w1) D0 (TDir (main ++ extra)) /\ look (w_fs w1) D0 = Some NDir).
    { intros w1 H1 H2. assert (HT : look (w_fs w1) D0 = look (w_fs w) D0) by (apply H1; intros n _; apply kid_not_parent). destruct (dir_as_whole D0 (main ++ extra) w w1 HF HND) as [A B]; [intros p _ Hp; apply H1; exact Hp|left; exact HT|exact H2|].
      split; [exact A|]. split; [exact B|congruence]. }
    unfold rest in H. assert (HX : exists w1, w1 = w) by eauto. destruct HX as (w1 & HX). rewrite <- HX in H. assert (HE1 : w_fs w1 = w_fs w) by congruence. clear HX.
    match type of H with bind ?m ?f w1 = _ => destruct (m w1) as [w2 o2] eqn:EA end.
    assert (HA1 : anc (w_fs w1) (D0 ++ [])) by (rewrite HE1, app_nil_r; exact HA). assert (HT1 : look (w_fs w1) (D0 ++ []) = Some NDir) by (rewrite HE1, app_nil_r; exact HD). assert (HF1 : all_fit (w_fs w1) (D0 ++ []) main) by (rewrite HE1, app_nil_r; exact HFm).
    assert (Hoksm : oks dest [] main) by (intros n t r Hin; apply Hoks, in_or_app; left; exact Hin). assert (Hokse : oks dest [] extra) by (intros n t r Hin; apply Hoks, in_or_app; right; exact Hin).
    destruct (ANY _ _ _ _ V1 _ _ _ _ _ _ _ _ _ _ named_dest HA1 (or_intror HT1) HF1 EA) as (K1 & K2 & K3 & K4). rewrite app_nil_r in K1, K2, K3, HT1. rewrite HE1 in K2, K4.
    assert (HD2 : look (w_fs w2) D0 = Some NDir) by (destruct K2 as [K2|K2]; congruence).
    assert (HO2 : only_kids D0 (map fst main) w w2). { intros p Hp. destruct (cpath_dec p D0) as [->|Np]; [congruence|]. rewrite K1 by assumption. rewrite HE1. reflexivity. }
    assert (HFe2 : all_fit (w_fs w2) D0 extra).
    { intros n t Hin. apply (fit_same (w_fs w)); [|exact (HFe n t Hin)]. intros r. apply HO2. intros m Hm. apply (sibling_apart D0 n m); [|apply below_app]. intros ->. apply (V6 m Hm). apply in_map_iff. exists (m, t). auto. }
    assert (D2 : forall w3, w_fs w3 = w_fs w2 -> only D0 w w3 /\ part_of_tree (w_fs w3) D0 (TDir (main ++ extra)) /\ look (w_fs w3) D0 = Some NDir).
    { intros w3 He. apply Done; [|apply app_fit; rewrite He; auto]. intros p Hp. rewrite He. apply HO2. intros n Hn. apply Hp. rewrite map_app. apply in_or_app. left. exact Hn. }
    unfold bind in H. unfold bind in EA. rewrite EA in H. destruct o2 as [[v2 ok2]| | |]; [|injection H as <- _; apply D2; reflexivity..].
    destruct ((if ok2 then ret tt else emit (EvWarn WDir dest)) w2) as [w3 o3] eqn:EW. apply warn_fs in EW as [HE3 ->]. rewrite <- HE3 in HD2, HFe2.
    destruct (subvols_loop fuel cfuel E dev q clobber dest (st_items (q_subvolumes q)) (st_end (q_subvolumes q)) v2 w3) as [w4 o4] eqn:ES.
    destruct (K4 HC HD Hok0 Hoksm V2 ltac:(intros x _ []) _ _ eq_refl) as [_ HJ].
    assert (HA3 : anc (w_fs w3) D0). { rewrite HE3. apply (anc_only D0 w w2); [|exact HA]. intros p Hp. apply HO2. intros n _ HB. apply Hp. exact (below_trans _ _ _ (below_app _ _) HB). }
    destruct (any_subs _ _ _ V3 _ _ _ _ _ _ _ _ _ ltac:(intros x; rewrite (HJ x); cbn [In]; tauto) HC HA3 HD2 HFe2 Hokse ES) as [S1 S2].
    assert (w' = w4) as -> by (unfold ret in H; destruct o4; injection H as <- _; reflexivity). apply Done.
    - intros p Hp. rewrite map_app in Hp. rewrite S1 by (intros n Hn; apply Hp, in_or_app; right; exact Hn). rewrite HE3. apply HO2. intros n Hn. apply Hp, in_or_app. left. exact Hn.
    - apply app_fit. split; [|exact S2]. intros n t Hin. apply (fit_same (w_fs w2)); [|exact (K3 n t Hin)]. intros r. rewrite <- HE3. apply S1. intros m Hm. apply (sibling_apart D0 n m); [|apply below_app]. intros ->. apply (V6 m); [apply in_map_iff; exists (m, t); auto|exact Hm].
  Qed.

  Lemma any_volume kids fuel cfuel dev clobber w w' out : volume_shape q Sh kids -> calm E -> anc (w_fs w) D0 -> look (w_fs w) D0 = Some NDir ->
    okp dest [] -> oks dest [] kids -> part_of_tree (w_fs w) D0 (TDir kids) ->
    doRecoverFiles fuel cfuel E dev q clobber dest w = (w', out) -> only D0 w w' /\ part_of_tree (w_fs w') D0 (TDir kids) /\ look (w_fs w') D0 = Some NDir.
  Proof using Hnd Hne.
    intros HV HC HA HD Hok0 Hoks HF H. unfold doRecoverFiles in H. unfold bind at 1 in H. destruct (MkdirAll E dest w) as [w1 o1] eqn:EM. pose proof (mkall_there _ _ _ HA HD EM) as HE1.
    assert (D1 : forall w2, w_fs w2 = w_fs w -> only D0 w w2 /\ part_of_tree (w_fs w2) D0 (TDir kids) /\ look (w_fs w2) D0 = Some NDir).
    { intros w2 He. rewrite He. split; [apply only_fs; exact He|auto]. }
    destruct o1 as [ok| | |]; [|injection H as <- _; apply D1; exact HE1..]. destruct ok; cbn [negb] in H; [|unfold bind, emit, ret in H; injection H as <- _; apply D1; exact HE1].
    change (rest fuel cfuel dev clobber w1 = (w', out)) in H. rewrite <- HE1 in HA, HD, HF. destruct (any_rest _ _ _ _ _ _ _ _ HV HC HA HD Hok0 Hoks HF H) as (A1 & A2 & A3).
    split; [|auto]. intros p Hp. rewrite A1 by exact Hp. rewrite HE1. reflexivity.
  Qed.

End Volume.

(** without faults *)
Section NoFaults.
  Variables (E : env) (dest : list byte) (q : queries) (Dv : list byte).
  Hypothesis Hnd : ~ In [dot; dot] (comps dest).
  Hypothesis Hne : dest <> [].
  Notation D0 := (D0 E dest).
  Notation rest := (rest E dest q).
  Variables (cfuel : nat) (dev : readerAt) (clobber : bool).
  Hypothesis HE : no_faults E.
  Hypothesis HG : good_device Dv dev.
  Hypothesis HDl : zlen Dv < 2^63.
  Hypothesis Hcf : 2^64 < Z.of_nat cfuel.
  Lemma full_subs : forall l vis extra, subvols_show q Dv l vis extra -> exists f0, forall fuel v w, (f0 <= fuel)%nat ->
    (forall x, In x v <-> In x vis) -> anc (w_fs w) D0 -> look (w_fs w) D0 = Some NDir -> all_fit (w_fs w) D0 extra -> all_repl clobber (w_fs w) D0 extra -> oks dest [] extra ->
    exists w' v', subvols_loop fuel cfuel E dev q clobber dest l (Ok tt) v w = (w', Ret v') /\ all_hold (w_fs w') D0 extra /\ logs silent w w'.
  Proof using Hnd Hne HE HG HDl Hcf.
    destruct (any_all E dest q (shown q Dv) Hnd Hne) as [ANY _]. destruct (full_all E dest q Dv Hnd Hne cfuel dev clobber HE HG HDl Hcf) as [FULL _]. pose proof (no_calm E HE) as HC.
    induction 1 as [vis|k d l vis kids H1 H2 IH|k d l vis o n sub ks kids Ho Hn H3 H4 H5 H6 H7 H8 IH].
    - exists 0%nat. intros fuel v w _ _ _ _ _ _ _. exists w, v. split; [reflexivity|]. split; [intros n t []|apply logs_refl].
    - destruct IH as (f0 & IH). exists f0. intros fuel v w Hf Hv HA HD HF HR Hok. cbn [subvols_loop]. cbv zeta. apply Hv in H1. apply key_in_In in H1. rewrite H1. exact (IH fuel v w Hf Hv HA HD HF HR Hok).
    - destruct IH as (f0 & IH). exists (Nat.max f0 (length ks)). intros fuel v w Hf Hv HA HD HF HR Hok. cbn [subvols_loop]. cbv zeta. rewrite <- Ho.
      replace (key_in (o, FirstFreeObjectID) v) with false by (symmetry; destruct (key_in (o, FirstFreeObjectID) v) eqn:EK; [apply key_in_In, Hv in EK; contradiction|reflexivity]). unfold subvol_dest. rewrite <- Hn.
      assert (Hpl : plain n) by (rewrite Hn, Ho; apply subvol_fits). pose proof (named_join dest Hnd Hne dest [] n (named_dest dest) Hpl) as HNn. cbn [app] in HNn.
      pose proof (HF n _ (or_introl eq_refl)) as HKn. pose proof (HR n _ (or_introl eq_refl)) as HRn. pose proof (anc_child _ _ n HA HD) as HAn. assert (HNs : NoDup (map fst sub)) by (inversion H4; eapply list_nodup; eassumption).
      pose proof (whole_fit _ _ _ HNs HKn) as HFs.
      assert (HRs : all_repl clobber (w_fs w) (D0 ++ [n]) sub). exact (repl_sub _ _ _ _ HNs HRn).
      assert (Hok1 : okp dest [n]) by (apply (Hok n (TDir sub) []); [left; reflexivity|discriminate]).
      assert (Hoks1 : oks dest [n] sub). { intros m u r Hm Hr. apply (Hok n (TDir sub) (m :: r)); [left; reflexivity|]. cbn [tree_at]. rewrite (In_pick _ _ _ HNs Hm). exact Hr. }
      assert (Hap : apart ks v) by (intros x Hx Hx'; apply Hv in Hx'; exact (H5 x Hx Hx')).
      destruct (FULL _ _ _ _ H4 fuel _ _ v w HNn HAn (fit_top _ _ _ HKn) HFs HRs HD Hok1 Hoks1 H6 Hap ltac:(lia)) as (w1 & v1 & HRun & HH1 & HH2 & HLg).
      destruct (ANY _ _ _ _ H4 _ _ _ _ _ _ _ _ _ _ HNn HAn (fit_top _ _ _ HKn) HFs HRun) as (K1 & K2 & K3 & K4). destruct (dir_as_whole _ _ _ _ HKn HNs K1 K2 K3) as [HO1 HF1].
      destruct (K4 HC HD Hok1 Hoks1 H6 Hap _ _ eq_refl) as [_ HJ].
      assert (HH : holds_tree (w_fs w1) (D0 ++ [n]) (TDir sub)).
      { apply kids_hold; [exact HH1|exact HH2|]. intros m r Hm. rewrite K1; [apply (proj2 (fit_kids _ _ _ HKn)); destruct (pick sub m) eqn:EP; [|reflexivity]; destruct Hm; apply pick_names; rewrite EP; discriminate|apply ext_ne; discriminate|].
        intros m' Hm' [r' He]. rewrite <- (app_assoc (D0 ++ [n]) [m'] r') in He. cbn [app] in He. apply siblings in He. subst m'. contradiction. }
      destruct (only_kid_anc _ _ _ _ HO1 HA HD) as [HA1 HD1]. assert (Hv1 : forall x, In x v1 <-> In x (ks ++ vis)) by (intros x; rewrite (HJ x), in_app_iff, (Hv x); tauto).
      assert (HFr : all_fit (w_fs w1) D0 kids) by (apply (fit_others _ n kids w); [exact HO1|exact H7|intros m u Hm; apply HF; right; exact Hm]).
      assert (HRr : all_repl clobber (w_fs w1) D0 kids) by (apply (repl_others clobber _ n kids w); [exact HO1|exact H7|intros m u Hm; apply (HR m u); right; exact Hm]).
      assert (Hokr : oks dest [] kids) by (intros m u r Hm; apply Hok; right; exact Hm).
      destruct (IH fuel v1 w1 ltac:(lia) Hv1 HA1 HD1 HFr HRr Hokr) as (w' & v' & G1 & G2 & G3).
      exists w', v'. unfold bind. rewrite HRun. cbn [ret]. unfold ret. split; [exact G1|]. split; [|exact (logs_trans _ _ _ _ HLg G3)].
      intros m u [H|H]; [|exact (G2 m u H)]. injection H as <- <-. apply (tree_same (w_fs w1)); [|exact HH]. destruct (any_subs E dest q (shown q Dv) Hnd Hne _ _ _ H8 _ _ _ _ _ _ _ _ _ Hv1 HC HA1 HD1 HFr Hokr G1) as [S1 _].
      intros r. apply S1. intros m Hm. apply (sibling_apart D0 n m); [|apply below_app]. intros ->. contradiction.
  Qed.
  Lemma full_rest kids : volume_shows q Dv kids -> exists f0, forall fuel w, (f0 <= fuel)%nat -> anc (w_fs w) D0 -> look (w_fs w) D0 = Some NDir ->
    okp dest [] -> oks dest [] kids -> part_of_tree (w_fs w) D0 (TDir kids) -> replaceable clobber (w_fs w) D0 (TDir kids) ->
    exists w' v, rest fuel cfuel dev clobber w = (w', Ret (true, v)) /\ holds_tree (w_fs w') D0 (TDir kids) /\ only D0 w w' /\ logs silent w w'.
  Proof using Hnd Hne HE HG HDl Hcf.
    intros HV. pose proof HV as (main & ks & extra & V1 & V2 & V3 & V4 & -> & V6). destruct (full_subs _ _ _ V3) as (f0 & SUBS). exists (Nat.max f0 (length ks)). intros fuel w Hf HA HD Hok0 Hoks HF HR.
    destruct (any_all E dest q (shown q Dv) Hnd Hne) as [ANY _]. destruct (full_all E dest q Dv Hnd Hne cfuel dev clobber HE HG HDl Hcf) as [FULL _]. pose proof (no_calm E HE) as HC.
    assert (HNm : NoDup (map fst main)) by (inversion V1; eapply list_nodup; eassumption). assert (HNe : NoDup (map fst extra)) by exact (proj2 (subs_deep _ _ _ _ _ V3)).
    pose proof (nodup_app_names _ _ HNm HNe V6) as HND. pose proof (whole_fit _ _ _ HND HF) as HFA. apply app_fit in HFA as [HFm HFe].
    pose proof (repl_sub _ _ _ _ HND HR) as HRa.
    assert (HX : exists w1, w1 = w) by eauto. destruct HX as (w1 & HX). assert (HE1 : w_fs w1 = w_fs w) by congruence.
    assert (HA1 : anc (w_fs w1) (D0 ++ [])) by (rewrite HE1, app_nil_r; exact HA). assert (HT1 : look (w_fs w1) (D0 ++ []) = Some NDir) by (rewrite HE1, app_nil_r; exact HD). assert (HF1 : all_fit (w_fs w1) (D0 ++ []) main) by (rewrite HE1, app_nil_r; exact HFm).
    assert (HR1 : all_repl clobber (w_fs w1) (D0 ++ []) main) by (rewrite HE1, app_nil_r; intros n t Hin; apply HRa, in_or_app; left; exact Hin).
    assert (Hoksm : oks dest [] main) by (intros n t r Hin; apply Hoks, in_or_app; left; exact Hin). assert (Hokse : oks dest [] extra) by (intros n t r Hin; apply Hoks, in_or_app; right; exact Hin).
    assert (HD1 : look (w_fs w1) D0 = Some NDir) by (rewrite HE1; exact HD).
    destruct (FULL _ _ _ _ V1 fuel dest [] [] w1 (named_dest dest) HA1 (or_intror HT1) HF1 HR1 HD1 Hok0 Hoksm V2 ltac:(intros x _ []) ltac:(lia)) as (w2 & v2 & EA & HH1 & HH2 & HL2).
    destruct (ANY _ _ _ _ V1 _ _ _ _ _ _ _ _ _ _ (named_dest dest) HA1 (or_intror HT1) HF1 EA) as (K1 & K2 & K3 & K4). rewrite app_nil_r in K1, K2, K3, HT1, HH1, HH2. rewrite HE1 in K4.
    destruct (K4 HC HD Hok0 Hoksm V2 ltac:(intros x _ []) _ _ eq_refl) as [_ HJ].
    assert (HO2 : only_kids D0 (map fst main) w w2). { intros p Hp. destruct (cpath_dec p D0) as [->|Np]; [congruence|]. rewrite K1 by assumption. rewrite HE1. reflexivity. }
    assert (Hoth : forall n t, In (n, t) extra -> forall r, look (w_fs w2) ((D0 ++ [n]) ++ r) = look (w_fs w) ((D0 ++ [n]) ++ r)).
    { intros n t Hin r. apply HO2. intros m Hm. apply (sibling_apart D0 n m); [|apply below_app]. intros ->. apply (V6 m Hm). apply in_map_iff. exists (m, t). auto. }
    assert (HFe2 : all_fit (w_fs w2) D0 extra) by (intros n t Hin; apply (fit_same (w_fs w)); [exact (Hoth n t Hin)|exact (HFe n t Hin)]).
    assert (HRe2 : all_repl clobber (w_fs w2) D0 extra) by (intros n t Hin; apply (repl_same _ (w_fs w)); [exact (Hoth n t Hin)|exact (HRa n t (in_or_app _ _ _ (or_intror Hin)))]).
    assert (HA2 : anc (w_fs w2) D0). { apply (anc_only D0 w w2); [|exact HA]. intros p Hp. apply HO2. intros n _ HB. apply Hp. exact (below_trans _ _ _ (below_app _ _) HB). }
    assert (Hv2 : forall x, In x v2 <-> In x ks) by (intros x; rewrite (HJ x); cbn [In]; tauto).
    destruct (SUBS fuel v2 w2 ltac:(lia) Hv2 HA2 HH1 HFe2 HRe2 Hokse) as (w' & v' & ES & HH3 & HL3). destruct (any_subs E dest q (shown q Dv) Hnd Hne _ _ _ V3 _ _ _ _ _ _ _ _ _ Hv2 HC HA2 HH1 HFe2 Hokse ES) as [S1 _].
    assert (Run : rest fuel cfuel dev clobber w = (w', Ret (true, v'))).
    { rewrite <- HX. unfold rest. unfold bind at 1. rewrite EA. unfold bind at 1, ret at 1. unfold bind at 1. rewrite V4, ES. reflexivity. }
    exists w', v'. split; [exact Run|]. destruct (any_rest E dest q (shown q Dv) Hnd Hne _ _ _ _ _ _ _ _ HV HC HA HD Hok0 Hoks HF Run) as (A1 & A2 & A3). split; [|split; [exact A1|]].
    - apply kids_hold; [exact A3| |intros n r Hn; apply (proj2 (fit_kids _ _ _ A2)); destruct (pick (main ++ extra) n) eqn:EP; [|reflexivity]; destruct Hn; apply pick_names; rewrite EP; discriminate].
      intros n t Hin. apply in_app_or in Hin as [Hin|Hin]; [|exact (HH3 n t Hin)]. apply (tree_same (w_fs w2)); [|exact (HH2 n t Hin)]. intros r. apply S1. intros m Hm. apply (sibling_apart D0 n m); [|apply below_app]. intros ->. apply (V6 m); [apply in_map_iff; exists (m, t); auto|exact Hm].
    - rewrite <- HX. exact (logs_trans _ _ _ _ HL2 HL3).
  Qed.
  Lemma full_volume kids : volume_shows q Dv kids -> exists f0, forall fuel w, (f0 <= fuel)%nat -> anc (w_fs w) D0 -> look (w_fs w) D0 = Some NDir ->
    okp dest [] -> oks dest [] kids -> part_of_tree (w_fs w) D0 (TDir kids) -> replaceable clobber (w_fs w) D0 (TDir kids) ->
    exists w' v, doRecoverFiles fuel cfuel E dev q clobber dest w = (w', Ret (true, v)) /\ holds_tree (w_fs w') D0 (TDir kids) /\ only D0 w w' /\ logs silent w w'.
  Proof using Hnd Hne HE HG HDl Hcf.
    intros HV. destruct (full_rest kids HV) as (f0 & REST). exists f0. intros fuel w Hf HA HD Hok0 Hoks HF HR. pose proof (no_calm E HE) as HC.
    destruct (mkall_calm E dest Hnd dest [] w HC (named_dest dest) Hok0) as (w1 & r1 & EM & Hr1); [rewrite app_nil_r; exact HA|right; rewrite app_nil_r; exact HD|exact HD|]. pose proof (mkall_there E dest Hnd _ _ _ HA HD EM) as HE1.
    assert (r1 = Ret true) as ->. { destruct Hr1 as [Hr1|Hr1]; [exact Hr1|]. subst r1. exfalso. exact (mkall_nocrash E HE _ _ _ EM). }
    rewrite <- HE1 in HA, HD, HF, HR. destruct (REST fuel w1 Hf HA HD Hok0 Hoks HF HR) as (w' & v & H1 & H2 & H3 & H4). exists w', v.
    split; [unfold doRecoverFiles; unfold bind at 1; rewrite EM; exact H1|]. split; [exact H2|]. split; [intros p Hp; rewrite H3 by exact Hp; rewrite HE1; reflexivity|].
    exact (logs_trans _ w w1 w' (silent_mkall _ _ _ _ _ EM) H4).
  Qed.
End NoFaults.

(** ** the theorems *)
Lemma dest_facts E F dest P : plain_dest E F dest P -> ~ In [dot; dot] (comps dest) /\ dest <> [] /\ Forall (fun c => zlen c <= 255) (comps dest) /\ P = D0 E dest /\ anc F P /\ look F P = Some NDir /\ path_arg dest = true.
Proof.
  intros (W & HP & Hnd & HD & HL & HS). split; [exact Hnd|]. split; [intros ->; discriminate|]. split; [exact HS|]. split; [exact HD|]. split; [|auto]. intros a b Hab Hb. apply (wf_prefix F W b a). rewrite <- Hab. exact HL.
Qed.
Lemma volume_oks q A E dest kids F P : volume_shape q A kids -> plain_dest E F dest P -> paths_short dest kids -> okp dest [] /\ oks dest [] kids.
Proof.
  intros (main & ks & extra & V1 & V2 & V3 & V4 & -> & V6) HD HP. destruct (dest_facts _ _ _ _ HD) as (Hnd & Hne & Hsh & _ & _ & _ & Hpa).
  assert (HK : kids_deep (main ++ extra)) by (intros n t Hin; apply in_app_or in Hin as [Hin|Hin]; [exact (proj1 (shows_deep q A) _ _ _ _ V1 n t Hin)|exact (proj1 (subs_deep _ _ _ _ _ V3) n t Hin)]).
  assert (HND : NoDup (map fst (main ++ extra))) by (apply nodup_app_names; [inversion V1; eapply list_nodup; eassumption|exact (proj2 (subs_deep _ _ _ _ _ V3))|exact V6]).
  split; [apply okp_of; auto; apply HP; discriminate|]. intros n t r Hin Hr. cbn [app]. assert (HT : tree_at (TDir (main ++ extra)) (n :: r) <> None) by (cbn [tree_at]; rewrite (In_pick _ _ _ HND Hin); exact Hr).
  apply okp_of; auto. apply (deep_dir _ HK). exact HT.
Qed.
(** C67.  If the index and the device describe a tree (directories, files, links,
    subvolumes), recover without faults into a plain destination directory that holds
    nothing, or parts of such a tree that it may overwrite, reports success without a
    warning and leaves exactly this tree there; nothing outside the destination changes. *)
Theorem C67_whole_tree cfuel E dev D q clobber dest w P kids :
  no_faults E -> good_device D dev -> zlen D < 2^63 -> 2^64 < Z.of_nat cfuel ->
  volume_shows q D kids -> plain_dest E (w_fs w) dest P -> paths_short dest kids ->
  part_of_tree (w_fs w) P (TDir kids) -> replaceable clobber (w_fs w) P (TDir kids) ->
  exists fuel0, forall fuel, (fuel0 <= fuel)%nat ->
  exists w' v evs, doRecoverFiles fuel cfuel E dev q clobber dest w = (w', Ret (true, v)) /\
    holds_tree (w_fs w') P (TDir kids) /\ (forall p, ~ at_or_below P p -> look (w_fs w') p = look (w_fs w) p) /\
    w_log w' = evs ++ w_log w /\ (forall k s, ~ In (EvWarn k s) evs).
Proof.
  intros HE HG HDl Hcf HV HD HPS HF HR. destruct (volume_oks _ _ _ _ _ _ _ HV HD HPS) as [Hok Hoks]. destruct (dest_facts _ _ _ _ HD) as (Hnd & Hne & Hsh & -> & HA & HL & Hpa).
  destruct (full_volume E dest q D Hnd Hne cfuel dev clobber HE HG HDl Hcf kids HV) as (f0 & H). exists f0. intros fuel Hf. destruct (H fuel w Hf HA HL Hok Hoks HF HR) as (w' & v & H1 & H2 & H3 & (evs & H4 & H5)).
  exists w', v, evs. split; [exact H1|]. split; [exact H2|]. split; [exact H3|]. split; [exact H4|]. intros k s Hin. rewrite Forall_forall in H5. exact (H5 _ Hin).
Qed.
Print Assumptions C67_whole_tree.
Lemma shape_any_run fuel cfuel E dev q A clobber dest w w' out P kids :
  (forall n k m, k = OStat \/ k = OLstat \/ k = OMkdir -> e_faults E n k <> FErr m) ->
  volume_shape q A kids -> plain_dest E (w_fs w) dest P -> paths_short dest kids -> part_of_tree (w_fs w) P (TDir kids) ->
  doRecoverFiles fuel cfuel E dev q clobber dest w = (w', out) ->
  part_of_tree (w_fs w') P (TDir kids) /\ (forall p, ~ at_or_below P p -> look (w_fs w') p = look (w_fs w) p).
Proof.
  intros HC HV HD HPS HF H. destruct (volume_oks _ _ _ _ _ _ _ HV HD HPS) as [Hok Hoks]. destruct (dest_facts _ _ _ _ HD) as (Hnd & Hne & Hsh & -> & HA & HL & Hpa).
  destruct (any_volume E dest q A Hnd Hne kids fuel cfuel dev clobber w w' out HV HC HA HL Hok Hoks HF H) as (X & Y & _). auto.
Qed.
(** C67, C51: whatever happens to a run on such a volume (files or links fail, reads fail, the
    process is killed at any system call, also in the middle of a write), the
    destination holds a part of the tree and nothing outside changes, as long as the
    directory operations do not fail. *)
Theorem C67_any_run fuel cfuel E dev D q clobber dest w w' out P kids :
  (forall n k m, k = OStat \/ k = OLstat \/ k = OMkdir -> e_faults E n k <> FErr m) ->
  volume_shows q D kids -> plain_dest E (w_fs w) dest P -> paths_short dest kids -> part_of_tree (w_fs w) P (TDir kids) ->
  doRecoverFiles fuel cfuel E dev q clobber dest w = (w', out) ->
  part_of_tree (w_fs w') P (TDir kids) /\ (forall p, ~ at_or_below P p -> look (w_fs w') p = look (w_fs w) p).
Proof. exact (shape_any_run fuel cfuel E dev q (shown q D) clobber dest w w' out P kids). Qed.
Print Assumptions C67_any_run.
(** C51.  After any such interrupted or failed run, running recover again (same index, same
    device, no faults this time) leaves exactly the tree, provided it has --clobber or no
    file was left incomplete. *)
Theorem C51_rerun fuel1 cfuel1 E1 dev1 clobber1 clobber cfuel E dev D q dest w w1 out1 P kids :
  e_cwd E1 = e_cwd E -> (forall n k m, k = OStat \/ k = OLstat \/ k = OMkdir -> e_faults E1 n k <> FErr m) ->
  no_faults E -> good_device D dev -> zlen D < 2^63 -> 2^64 < Z.of_nat cfuel ->
  volume_shows q D kids -> plain_dest E (w_fs w) dest P -> paths_short dest kids -> part_of_tree (w_fs w) P (TDir kids) ->
  doRecoverFiles fuel1 cfuel1 E1 dev1 q clobber1 dest w = (w1, out1) -> replaceable clobber (w_fs w1) P (TDir kids) ->
  exists fuel0, forall fuel, (fuel0 <= fuel)%nat ->
  exists w' v, doRecoverFiles fuel cfuel E dev q clobber dest w1 = (w', Ret (true, v)) /\
    holds_tree (w_fs w') P (TDir kids) /\ (forall p, ~ at_or_below P p -> look (w_fs w') p = look (w_fs w) p).
Proof.
  intros Hcwd HC HE HG HDl Hcf HV HD HPS HF H HRp. destruct (volume_oks _ _ _ _ _ _ _ HV HD HPS) as [Hok Hoks].
  assert (HD1 : plain_dest E1 (w_fs w) dest P) by (unfold plain_dest in *; rewrite Hcwd; exact HD). destruct (dest_facts _ _ _ _ HD1) as (Hnd & Hne & Hsh & HP1 & HA & HL & Hpa).
  rewrite HP1 in HA, HL, HF. destruct (any_volume E1 dest q (shown q D) Hnd Hne kids _ _ _ _ w w1 out1 HV HC HA HL Hok Hoks HF H) as (A1 & A2 & A3). pose proof (anc_only _ _ _ A1 HA) as HA1. rewrite <- HP1 in A1, A2, A3, HA1.
  destruct (dest_facts _ _ _ _ HD) as (_ & _ & _ & HP2 & _). rewrite HP2 in A2, A3, HA1, HRp. destruct (full_volume E dest q D Hnd Hne cfuel dev clobber HE HG HDl Hcf kids HV) as (f0 & G). exists f0. intros fuel Hf.
  destruct (G fuel w1 Hf HA1 A3 Hok Hoks A2 HRp) as (w' & v & H1 & H2 & H3 & _). exists w', v. split; [exact H1|]. rewrite <- HP2 in *. split; [exact H2|]. intros p Hp. rewrite H3, A1 by exact Hp. reflexivity.
Qed.
Print Assumptions C51_rerun.
(** in particular always with --clobber *)
Theorem C51_rerun_clobber fuel1 cfuel1 E1 dev1 clobber1 cfuel E dev D q dest w w1 out1 P kids :
  e_cwd E1 = e_cwd E -> (forall n k m, k = OStat \/ k = OLstat \/ k = OMkdir -> e_faults E1 n k <> FErr m) ->
  no_faults E -> good_device D dev -> zlen D < 2^63 -> 2^64 < Z.of_nat cfuel ->
  volume_shows q D kids -> plain_dest E (w_fs w) dest P -> paths_short dest kids -> part_of_tree (w_fs w) P (TDir kids) ->
  doRecoverFiles fuel1 cfuel1 E1 dev1 q clobber1 dest w = (w1, out1) ->
  exists fuel0, forall fuel, (fuel0 <= fuel)%nat ->
  exists w' v, doRecoverFiles fuel cfuel E dev q true dest w1 = (w', Ret (true, v)) /\
    holds_tree (w_fs w') P (TDir kids) /\ (forall p, ~ at_or_below P p -> look (w_fs w') p = look (w_fs w) p).
Proof.
  intros H1 H2 H3 H4 H5 H6 H7 H8 H9 H10 H11. exact (C51_rerun _ _ _ _ _ true _ _ _ _ _ _ _ _ _ _ _ H1 H2 H3 H4 H5 H6 H7 H8 H9 H10 H11 (or_introl eq_refl)).
Qed.
Print Assumptions C51_rerun_clobber.

(** C75: recover from a damaged device restores everything that is not on bad positions. *)
From Verif Require Import Go GoProofs Layout KeyFmt Bolt Store ToString Fs Recover RecoverProofs SpecFs SpecContent PathProofs PropsRecoverPaths FsProofs PropsRecoverSafe PropsRecoverDfs PropsRecoverFile PropsRecoverLink SpecTree PropsText SpecDamage TreeProofs TreeRun TreeFull TreeLegible TreeDamage PropsTree.
From Coq Require Import ZifyBool ZifyNat ZifyN.
Ltac Zify.zify_post_hook ::= Z.div_mod_to_equations.

Lemma subvol_inj k k' : subvol_prefix ++ dec (ObjectID (ik_Key k)) = subvol_prefix ++ dec (ObjectID (ik_Key k')) -> ObjectID (ik_Key k) = ObjectID (ik_Key k').
Proof.
  intros H. apply app_inv_head in H. assert (G : forall k, is_u64 (ObjectID (ik_Key k))).
  { intros x. cbn [ik_Key ObjectID]. unfold ik_ObjectID. pose proof (be_decode_range (sub_bytes keyV2ObjectID 8 x)) as [A B]. split; [exact A|]. refine (Z.lt_le_trans _ _ _ B _).
    change (2^64) with (256^8). apply Z.pow_le_mono_r; [lia|]. unfold zlen, sub_bytes. pose proof (firstn_le_length 8 (skipn (Z.to_nat keyV2ObjectID) x)). change (Z.to_nat 8) with 8%nat. lia. }
  destruct (dec_spec _ (G k)) as (_ & _ & <-). rewrite H. exact (proj2 (proj2 (dec_spec _ (G k')))).
Qed.
(** a name that is shown is the name of an item, and what is intact is shown *)
Lemma shown_item q Ak o l kids ks : list_shape q Ak o l kids ks -> forall n, In n (map fst kids) -> exists k di, In (k, di) l /\ DirItem_Name di = Ok n.
Proof.
  induction 1 as [o|o k di l n loc c kids ks Hs H1 H2 H3 H4 H5 IH|o k di l n loc c kids ks Hs H1 H2 H3 H4 H5 IH|o k di l n o' d' sub kids ks1 ks2 Hs H1 H2 H3 H4 H5 IH|o k di l n t loc kids ks Hs H1 H2 H3 H4 H5 IH]; intros m Hm; cbn [map fst In] in Hm.
  - destruct Hm.
  - destruct Hm as [<-|Hm]; [exists k, di; split; [left; reflexivity|exact (proj1 Hs)]|]. destruct (IH m Hm) as (k' & di' & A & B). exists k', di'. split; [right; exact A|exact B].
  - destruct Hm as [<-|Hm]; [exists k, di; split; [left; reflexivity|exact (proj1 Hs)]|]. destruct (IH m Hm) as (k' & di' & A & B). exists k', di'. split; [right; exact A|exact B].
  - destruct Hm as [<-|Hm]; [exists k, di; split; [left; reflexivity|exact Hs]|]. destruct (IH m Hm) as (k' & di' & A & B). exists k', di'. split; [right; exact A|exact B].
  - destruct (IH m Hm) as (k' & di' & A & B). exists k', di'. split; [right; exact A|exact B].
Qed.
Lemma item_name q G o di n r : item_reaches q G o di (n :: r) -> DirItem_Name di = Ok n.
Proof. intros H. inversion H as [? ? n' loc' S1 S2 S3|? ? n' loc' S1 S2 S3|? ? n' o'' d'' r' S1 S2 S3]; subst; [exact (proj1 S1)|exact (proj1 S1)|exact S1]. Qed.
Lemma intact_shown q Ak G o l kids ks : list_shape q Ak o l kids ks -> forall k di n r, In (k, di) l -> item_reaches q G o di (n :: r) -> In n (map fst kids).
Proof.
  induction 1 as [o|o k di l n loc c kids ks Hs H1 H2 H3 H4 H5 IH|o k di l n loc c kids ks Hs H1 H2 H3 H4 H5 IH|o k di l n o' d' sub kids ks1 ks2 Hs H1 H2 H3 H4 H5 IH|o k di l n t loc kids ks Hs H1 H2 H3 H4 H5 IH]; intros k0 di0 m r Hm HI.
  - destruct Hm.
  - destruct Hm as [E|Hm]; [|right; exact (IH _ _ _ _ Hm HI)]. injection E as <- <-. apply item_name in HI. destruct Hs as [Hs _]. left. cbn [fst]. congruence.
  - destruct Hm as [E|Hm]; [|right; exact (IH _ _ _ _ Hm HI)]. injection E as <- <-. apply item_name in HI. destruct Hs as [Hs _]. left. cbn [fst]. congruence.
  - destruct Hm as [E|Hm]; [|right; exact (IH _ _ _ _ Hm HI)]. injection E as <- <-. apply item_name in HI. left. cbn [fst]. congruence.
  - destruct Hm as [E|Hm]; [|exact (IH _ _ _ _ Hm HI)]. injection E as <- <-. exfalso. inversion HI as [? ? n' loc' S1 S2 S3|? ? n' loc' S1 S2 S3|? ? n' o'' d'' r' S1 S2 S3]; subst.
    + destruct Hs as (A1 & A2 & A3), S1 as (B1 & B2 & B3). congruence.
    + destruct Hs as (A1 & A2 & A3), S1 as (B1 & B2 & B3). congruence.
    + destruct (says_not_dir _ _ _ _ _ _ Hs H1 H4 S2).
Qed.
Lemma subs_new_only q Ak : forall l vis extra, subvols_shape q Ak l vis extra -> forall n, In n (map fst extra) -> exists k, n = subvol_prefix ++ dec (ObjectID (ik_Key k)) /\ ~ In (ObjectID (ik_Key k), FirstFreeObjectID) vis.
Proof.
  induction 1 as [vis|k d l vis kids H1 H2 IH|k d l vis o n sub ks kids Ho Hn H3 H4 H5 H6 H7 H8 IH]; intros m Hm; [destruct Hm|exact (IH m Hm)|]. destruct Hm as [<-|Hm].
  - exists k. cbn [fst]. rewrite <- Ho. auto.
  - destruct (IH m Hm) as (k' & A & B). exists k'. split; [exact A|]. intros HV. apply B, in_or_app. right. exact HV.
Qed.

Section Volume.
  Variables (E : env) (dest : list byte) (q : queries) (Dv : list byte).
  Hypothesis Hnd : ~ In [dot; dot] (comps dest).
  Hypothesis Hne : dest <> [].
  Notation D0 := (D0 E dest).
  Variables (cfuel : nat) (dev : readerAt) (clobber : bool) (bad : Z -> Prop).
  Hypothesis HE : no_faults E.
  Hypothesis HG : damaged bad Dv dev.
  Hypothesis HDl : zlen Dv < 2^63.
  Hypothesis Hcf : 2^64 < Z.of_nat cfuel.
  (** what is asked of files and links, and what is good *)
  Variables (Sh : ask) (Gd : good).
  Hypothesis HSf : forall o i c, ask_file Sh o i c -> file_legible q o i /\ (good_file Gd o i -> file_shows q Dv o i c /\ file_safe q bad o i).
  Hypothesis HSl : forall o i t, ask_link Sh o i t -> link_legible q o i /\ (good_link Gd o i -> link_shows q Dv o i t /\ link_safe q bad o i).
  Definition subs_ok (F : fs) (l : list (list byte * slice)) (extra : entries) : Prop := forall k d n t r,
    In (k, d) l -> In (n, t) extra -> n = subvol_prefix ++ dec (ObjectID (ik_Key k)) -> reaches q Gd (ObjectID (ik_Key k)) FirstFreeObjectID r -> look F ((D0 ++ [n]) ++ r) = tree_at t r.
  Lemma dmg_subs : forall l vis extra, subvols_shape q Sh l vis extra -> exists f0, forall fuel v w, (f0 <= fuel)%nat ->
    (forall x, In x v <-> In x vis) -> anc (w_fs w) D0 -> look (w_fs w) D0 = Some NDir -> all_fit (w_fs w) D0 extra -> all_repl clobber (w_fs w) D0 extra -> oks dest [] extra ->
    exists w' v', subvols_loop fuel cfuel E dev q clobber dest l (Ok tt) v w = (w', Ret v') /\ subs_ok (w_fs w') l extra.
  Proof using All.
    destruct (any_all E dest q Sh Hnd Hne) as [ANY _]. destruct (dmg_all E dest q Dv Hnd Hne cfuel dev clobber bad HE HG HDl Hcf Sh Gd HSf HSl) as [FULL _]. pose proof (no_calm E HE) as HC.
    induction 1 as [vis|k d l vis kids H1 H2 IH|k d l vis o n sub ks kids Ho Hn H3 H4 H5 H6 H7 H8 IH].
    - exists 0%nat. intros fuel v w _ _ _ _ _ _ _. exists w, v. split; [reflexivity|]. intros ? ? ? ? ? [].
    - destruct IH as (f0 & IH). exists f0. intros fuel v w Hf Hv HA HD HF HR Hok. cbn [subvols_loop]. cbv zeta. pose proof H1 as H1'. apply Hv in H1. apply key_in_In in H1. rewrite H1. destruct (IH fuel v w Hf Hv HA HD HF HR Hok) as (w' & v' & G1 & G2).
      exists w', v'. split; [exact G1|]. intros k' d' n t r [Hin|Hin]; [|exact (G2 k' d' n t r Hin)]. injection Hin as <- <-. intros Hx Hn _. exfalso.
      destruct (subs_new_only _ _ _ _ _ H2 n) as (k' & A & B); [apply in_map_iff; exists (n, t); auto|]. apply B. rewrite Hn in A. apply subvol_inj in A. rewrite <- A. exact H1'.
    - destruct IH as (f0 & IH). exists (Nat.max f0 (length ks)). intros fuel v w Hf Hv HA HD HF HR Hok. cbn [subvols_loop]. cbv zeta. rewrite <- Ho.
      replace (key_in (o, FirstFreeObjectID) v) with false by (symmetry; destruct (key_in (o, FirstFreeObjectID) v) eqn:EK; [apply key_in_In, Hv in EK; contradiction|reflexivity]). unfold subvol_dest. rewrite <- Hn.
      assert (Hpl : plain n) by (rewrite Hn, Ho; apply subvol_fits). pose proof (named_join dest Hnd Hne dest [] n (named_dest dest) Hpl) as HNn. cbn [app] in HNn.
      pose proof (HF n _ (or_introl eq_refl)) as HKn. pose proof (HR n _ (or_introl eq_refl)) as HRn. pose proof (anc_child _ _ n HA HD) as HAn. assert (HNs : NoDup (map fst sub)) by (inversion H4; eapply list_nodup; eassumption).
      pose proof (whole_fit _ _ _ HNs HKn) as HFs.
      assert (HRs : all_repl clobber (w_fs w) (D0 ++ [n]) sub). exact (repl_sub _ _ _ _ HNs HRn).
      assert (Hok1 : okp dest [n]) by (apply (Hok n (TDir sub) []); [left; reflexivity|discriminate]).
      assert (Hoks1 : oks dest [n] sub). { intros m u r Hm Hr. apply (Hok n (TDir sub) (m :: r)); [left; reflexivity|]. cbn [tree_at]. rewrite (In_pick _ _ _ HNs Hm). exact Hr. }
      assert (Hap : apart ks v) by (intros x Hx Hx'; apply Hv in Hx'; exact (H5 x Hx Hx')).
      destruct (FULL _ _ _ _ H4 fuel _ _ v w HNn HAn (fit_top _ _ _ HKn) HFs HRs HD Hok1 Hoks1 H6 Hap ltac:(lia)) as (w1 & v1 & HRun & HH).
      destruct (ANY _ _ _ _ H4 _ _ _ _ _ _ _ _ _ _ HNn HAn (fit_top _ _ _ HKn) HFs HRun) as (K1 & K2 & K3 & K4). destruct (dir_as_whole _ _ _ _ HKn HNs K1 K2 K3) as [HO1 HF1].
      destruct (K4 HC HD Hok1 Hoks1 H6 Hap _ _ eq_refl) as [_ HJ].
      destruct (only_kid_anc _ _ _ _ HO1 HA HD) as [HA1 HD1]. assert (Hv1 : forall x, In x v1 <-> In x (ks ++ vis)) by (intros x; rewrite (HJ x), in_app_iff, (Hv x); tauto).
      assert (HFr : all_fit (w_fs w1) D0 kids) by (apply (fit_others _ n kids w); [exact HO1|exact H7|intros m u Hm; apply HF; right; exact Hm]).
      assert (HRr : all_repl clobber (w_fs w1) D0 kids) by (apply (repl_others clobber _ n kids w); [exact HO1|exact H7|intros m u Hm; apply (HR m u); right; exact Hm]).
      assert (Hokr : oks dest [] kids) by (intros m u r Hm; apply Hok; right; exact Hm).
      destruct (IH fuel v1 w1 ltac:(lia) Hv1 HA1 HD1 HFr HRr Hokr) as (w' & v' & G1 & G2).
      exists w', v'. unfold bind. rewrite HRun. cbn [ret]. unfold ret. split; [exact G1|]. destruct (any_subs E dest q Sh Hnd Hne _ _ _ H8 _ _ _ _ _ _ _ _ _ Hv1 HC HA1 HD1 HFr Hokr G1) as [S1 _].
      assert (Hnew : In (o, FirstFreeObjectID) ks) by (inversion H4; left; reflexivity).
      intros k' d' m u r Hk Hm Hmn HI. destruct Hm as [Hm|Hm].
      + injection Hm as <- <-. rewrite Hn, Ho in Hmn. apply subvol_inj in Hmn. rewrite <- Hmn, <- Ho in HI. rewrite <- (HH r HI). apply S1. intros m Hm. apply (sibling_apart D0 n m); [|apply below_app]. intros ->. contradiction.
      + destruct Hk as [Hk|Hk]; [|exact (G2 k' d' m u r Hk Hm Hmn HI)]. injection Hk as <- <-. exfalso. rewrite <- Ho, <- Hn in Hmn. apply H7. apply in_map_iff. exists (m, u). auto.
  Qed.
  Lemma dmg_rest kids : volume_shape q Sh kids -> exists f0, forall fuel w, (f0 <= fuel)%nat -> anc (w_fs w) D0 -> look (w_fs w) D0 = Some NDir ->
    okp dest [] -> oks dest [] kids -> part_of_tree (w_fs w) D0 (TDir kids) -> replaceable clobber (w_fs w) D0 (TDir kids) ->
    exists w' v, rest E dest q fuel cfuel dev clobber w = (w', Ret (true, v)) /\ (forall r, vol_reaches q Gd r -> look (w_fs w') (D0 ++ r) = tree_at (TDir kids) r).
  Proof using All.
    intros HV. pose proof HV as (main & ks & extra & V1 & V2 & V3 & V4 & -> & V6). destruct (dmg_subs _ _ _ V3) as (f0 & SUBS). exists (Nat.max f0 (length ks)). intros fuel w Hf HA HD Hok0 Hoks HF HR.
    destruct (any_all E dest q Sh Hnd Hne) as [ANY _]. destruct (dmg_all E dest q Dv Hnd Hne cfuel dev clobber bad HE HG HDl Hcf Sh Gd HSf HSl) as [FULL _]. pose proof (no_calm E HE) as HC.
    assert (HNm : NoDup (map fst main)) by (inversion V1; eapply list_nodup; eassumption). assert (HNe : NoDup (map fst extra)) by exact (proj2 (subs_deep _ _ _ _ _ V3)).
    pose proof (nodup_app_names _ _ HNm HNe V6) as HND. pose proof (whole_fit _ _ _ HND HF) as HFA. apply app_fit in HFA as [HFm HFe].
    pose proof (repl_sub _ _ _ _ HND HR) as HRa.
    assert (HX : exists w1, w1 = w) by eauto. destruct HX as (w1 & HX). assert (HE1 : w_fs w1 = w_fs w) by congruence.
    assert (HA1 : anc (w_fs w1) (D0 ++ [])) by (rewrite HE1, app_nil_r; exact HA). assert (HT1 : look (w_fs w1) (D0 ++ []) = Some NDir) by (rewrite HE1, app_nil_r; exact HD). assert (HF1 : all_fit (w_fs w1) (D0 ++ []) main) by (rewrite HE1, app_nil_r; exact HFm).
    assert (HR1 : all_repl clobber (w_fs w1) (D0 ++ []) main) by (rewrite HE1, app_nil_r; intros n t Hin; apply HRa, in_or_app; left; exact Hin).
    assert (Hoksm : oks dest [] main) by (intros n t r Hin; apply Hoks, in_or_app; left; exact Hin). assert (Hokse : oks dest [] extra) by (intros n t r Hin; apply Hoks, in_or_app; right; exact Hin).
    assert (HD1 : look (w_fs w1) D0 = Some NDir) by (rewrite HE1; exact HD).
    destruct (FULL _ _ _ _ V1 fuel dest [] [] w1 (named_dest dest) HA1 (or_intror HT1) HF1 HR1 HD1 Hok0 Hoksm V2 ltac:(intros x _ []) ltac:(lia)) as (w2 & v2 & EA & HH).
    destruct (ANY _ _ _ _ V1 _ _ _ _ _ _ _ _ _ _ (named_dest dest) HA1 (or_intror HT1) HF1 EA) as (K1 & K2 & K3 & K4). rewrite app_nil_r in K1, K2, K3, HT1, HH. rewrite HE1 in K4.
    destruct (K4 HC HD Hok0 Hoksm V2 ltac:(intros x _ []) _ _ eq_refl) as [_ HJ].
    assert (HH1 : look (w_fs w2) D0 = Some NDir) by (destruct K2 as [K2|K2]; congruence).
    assert (HO2 : only_kids D0 (map fst main) w w2). { intros p Hp. destruct (cpath_dec p D0) as [->|Np]; [congruence|]. rewrite K1 by assumption. rewrite HE1. reflexivity. }
    assert (Hoth : forall n t, In (n, t) extra -> forall r, look (w_fs w2) ((D0 ++ [n]) ++ r) = look (w_fs w) ((D0 ++ [n]) ++ r)).
    { intros n t Hin r. apply HO2. intros m Hm. apply (sibling_apart D0 n m); [|apply below_app]. intros ->. apply (V6 m Hm). apply in_map_iff. exists (m, t). auto. }
    assert (HFe2 : all_fit (w_fs w2) D0 extra) by (intros n t Hin; apply (fit_same (w_fs w)); [exact (Hoth n t Hin)|exact (HFe n t Hin)]).
    assert (HRe2 : all_repl clobber (w_fs w2) D0 extra) by (intros n t Hin; apply (repl_same _ (w_fs w)); [exact (Hoth n t Hin)|exact (HRa n t (in_or_app _ _ _ (or_intror Hin)))]).
    assert (HA2 : anc (w_fs w2) D0). { apply (anc_only D0 w w2); [|exact HA]. intros p Hp. apply HO2. intros n _ HB. apply Hp. exact (below_trans _ _ _ (below_app _ _) HB). }
    assert (Hv2 : forall x, In x v2 <-> In x ks) by (intros x; rewrite (HJ x); cbn [In]; tauto).
    destruct (SUBS fuel v2 w2 ltac:(lia) Hv2 HA2 HH1 HFe2 HRe2 Hokse) as (w' & v' & ES & HH3). destruct (any_subs E dest q Sh Hnd Hne _ _ _ V3 _ _ _ _ _ _ _ _ _ Hv2 HC HA2 HH1 HFe2 Hokse ES) as [S1 _].
    assert (Run : rest E dest q fuel cfuel dev clobber w = (w', Ret (true, v'))).
    { rewrite <- HX. unfold rest. unfold bind at 1. rewrite EA. unfold bind at 1, ret at 1. unfold bind at 1. rewrite V4, ES. reflexivity. }
    exists w', v'. split; [exact Run|]. destruct (any_rest E dest q Sh Hnd Hne _ _ _ _ _ _ _ _ HV HC HA HD Hok0 Hoks HF Run) as (A1 & A2 & A3).
    assert (HLm : exists ks0, list_shape q Sh FSTreeObjectID (st_items (q_dirItems q FSTreeObjectID FirstFreeObjectID)) main ks0) by (inversion V1; eauto). destruct HLm as (ks0 & HLm).
    intros r HI. destruct HI as [r HM|k d n r H1 H2 H3 H4].
    - destruct r as [|n r]; [rewrite app_nil_r; exact A3|]. inversion HM as [|? ? k di ? M1 M2]; subst. pose proof (intact_shown _ _ Gd _ _ _ _ HLm _ _ _ _ M1 M2) as Hn. pose proof (HH _ HM) as HL.
      assert (HP : pick (main ++ extra) n = pick main n). { apply in_map_iff in Hn as ([n0 t] & He & Hin). cbn [fst] in He. subst n0. rewrite (In_pick _ _ _ HNm Hin). apply In_pick; [exact HND|apply in_or_app; left; exact Hin]. }
      cbn [tree_at] in HL |- *. rewrite HP, <- HL. apply S1. intros m Hm [r' He]. rewrite <- app_assoc in He. cbn [app] in He. apply siblings in He. subst m. exact (V6 n Hn Hm).
    - cbn [tree_at]. destruct (pick (main ++ extra) n) as [t|] eqn:EP; [|exact (proj2 (fit_kids _ _ _ A2) n r EP)].
      assert (Hin : In (n, t) extra).
      { apply pick_In in EP. apply in_app_or in EP as [EP|EP]; [|exact EP]. exfalso. destruct (shown_item _ _ _ _ _ _ HLm n) as (k' & di & B1 & B2); [apply in_map_iff; exists (n, t); auto|]. exact (H3 k' di B1 B2). }
      specialize (HH3 k d n t r H1 Hin H2 H4). rewrite <- app_assoc in HH3. exact HH3.
  Qed.
End Volume.

Lemma shape_damaged cfuel E dev D q bad clobber dest w P kids Sh Gd :
  (forall o i c, ask_file Sh o i c -> file_legible q o i /\ (good_file Gd o i -> file_shows q D o i c /\ file_safe q bad o i)) ->
  (forall o i t, ask_link Sh o i t -> link_legible q o i /\ (good_link Gd o i -> link_shows q D o i t /\ link_safe q bad o i)) ->
  no_faults E -> damaged bad D dev -> zlen D < 2^63 -> 2^64 < Z.of_nat cfuel ->
  volume_shape q Sh kids -> plain_dest E (w_fs w) dest P -> paths_short dest kids ->
  part_of_tree (w_fs w) P (TDir kids) -> replaceable clobber (w_fs w) P (TDir kids) ->
  exists fuel0, forall fuel, (fuel0 <= fuel)%nat ->
  exists w' v, doRecoverFiles fuel cfuel E dev q clobber dest w = (w', Ret (true, v)) /\
    (forall r, vol_reaches q Gd r -> look (w_fs w') (P ++ r) = tree_at (TDir kids) r) /\
    part_of_tree (w_fs w') P (TDir kids) /\ (forall p, ~ at_or_below P p -> look (w_fs w') p = look (w_fs w) p).
Proof.
  intros HSf HSl HE HG HDl Hcf HV HD HPS HF HR. destruct (volume_oks _ _ _ _ _ _ _ HV HD HPS) as [Hok Hoks]. pose proof (no_calm E HE) as HC. destruct (dest_facts _ _ _ _ HD) as (Hnd & Hne & Hsh & HP & HA & HL & Hpa).
  destruct (dmg_rest E dest q D Hnd Hne cfuel dev clobber bad HE HG HDl Hcf Sh Gd HSf HSl kids HV) as (f0 & H). exists f0. intros fuel Hf. rewrite HP in HA, HL, HF, HR.
  destruct (mkall_calm E dest Hnd dest [] w HC (named_dest dest) Hok) as (w1 & r1 & EM & Hr1); [rewrite app_nil_r; exact HA|right; rewrite app_nil_r; exact HL|exact HL|]. pose proof (mkall_there E dest Hnd _ _ _ HA HL EM) as HE1.
  assert (r1 = Ret true) as ->. { destruct Hr1 as [Hr1|Hr1]; [exact Hr1|]. subst r1. exfalso. exact (mkall_nocrash E HE _ _ _ EM). }
  rewrite <- HE1 in HA, HL, HR. pose proof HF as HF1. rewrite <- HE1 in HF1. destruct (H fuel w1 Hf HA HL Hok Hoks HF1 HR) as (w' & v & H1 & H2).
  assert (Run : doRecoverFiles fuel cfuel E dev q clobber dest w = (w', Ret (true, v))) by (unfold doRecoverFiles; unfold bind at 1; rewrite EM; exact H1).
  exists w', v. split; [exact Run|]. rewrite <- HP in *. split; [exact H2|]. apply (shape_any_run fuel cfuel E dev q Sh clobber dest w w' _ P kids HC HV HD HPS HF Run).
Qed.
(** C75.  If the index and the device describe a tree and some positions of the device cannot
    be read, recover still reaches the end and reports success: everything that is not on a bad
    position (directories, files, links, at any depth and in any subvolume, also after a damaged
    file in the same directory) is exactly right, everything else is missing or has the right
    kind, and nothing outside the destination changes. *)
Theorem C75_damaged_device cfuel E dev D q bad clobber dest w P kids :
  no_faults E -> damaged bad D dev -> zlen D < 2^63 -> 2^64 < Z.of_nat cfuel ->
  volume_shows q D kids -> plain_dest E (w_fs w) dest P -> paths_short dest kids ->
  part_of_tree (w_fs w) P (TDir kids) -> replaceable clobber (w_fs w) P (TDir kids) ->
  exists fuel0, forall fuel, (fuel0 <= fuel)%nat ->
  exists w' v, doRecoverFiles fuel cfuel E dev q clobber dest w = (w', Ret (true, v)) /\
    (forall r, vol_intact q bad r -> look (w_fs w') (P ++ r) = tree_at (TDir kids) r) /\
    part_of_tree (w_fs w') P (TDir kids) /\ (forall p, ~ at_or_below P p -> look (w_fs w') p = look (w_fs w) p).
Proof.
  apply shape_damaged.
  - intros o i c H. split; [exact (shows_legible _ _ _ _ _ H)|]. intros HS. split; [exact H|exact HS].
  - intros o i t H. split; [exact (shows_legible_link _ _ _ _ _ H)|]. intros HS. split; [exact H|exact HS].
Qed.
Print Assumptions C75_damaged_device.
(** C76.  An index from which metadata is missing: if the directory items that are there list a tree (some of
    its files may have lost extents, their inode item or the chunk that maps their data, links their target) recover
    still reaches the end and reports success, and every directory, and every file and link of which nothing is
    missing, is exactly right, wherever it is in the tree.  Everything else is missing or has the right
    kind, and nothing outside the destination changes.  The device may be damaged as well. *)
Theorem C76_incomplete_index_partial cfuel E dev D q bad clobber dest w P kids :
  no_faults E -> damaged bad D dev -> zlen D < 2^63 -> 2^64 < Z.of_nat cfuel ->
  volume_lists q D kids -> plain_dest E (w_fs w) dest P -> paths_short dest kids ->
  part_of_tree (w_fs w) P (TDir kids) -> replaceable clobber (w_fs w) P (TDir kids) ->
  exists fuel0, forall fuel, (fuel0 <= fuel)%nat ->
  exists w' v, doRecoverFiles fuel cfuel E dev q clobber dest w = (w', Ret (true, v)) /\
    (forall r, vol_reaches q (complete q D bad) r -> look (w_fs w') (P ++ r) = tree_at (TDir kids) r) /\
    part_of_tree (w_fs w') P (TDir kids) /\ (forall p, ~ at_or_below P p -> look (w_fs w') p = look (w_fs w) p).
Proof.
  apply shape_damaged.
  - intros o i c [H1 H2]. split; [exact H1|]. intros [(c' & H3) H4]. rewrite (H2 c' H3). auto.
  - intros o i t [H1 H2]. split; [exact H1|]. intros [(t' & H3) H4]. rewrite (H2 t' H3). auto.
Qed.
Print Assumptions C76_incomplete_index_partial.

(** Recover on a well-formed tree from a damaged device: what is not on bad positions is restored. *)
From Verif Require Import Go GoProofs Layout KeyFmt Bolt Store Fs Recover RecoverProofs SpecFs SpecContent PathProofs PropsRecoverPaths FsProofs PropsRecoverSafe PropsRecoverDfs PropsRecoverFile PropsRecoverLink SpecTree SpecDamage TreeProofs TreeRun TreeFull TreeLegible.
From Coq Require Import ZifyBool ZifyNat ZifyN.
Ltac Zify.zify_post_hook ::= Z.div_mod_to_equations.

Lemma names_key o di k1 k2 : names_dir o di k1 -> names_dir o di k2 -> k1 = k2.
Proof.
  intros (n1 & t1 & l1 & A1 & _ & A3 & A4 & A5) (n2 & t2 & l2 & B1 & _ & B3 & B4 & B5). assert (l1 = l2) by congruence. subst l2. destruct A5 as [[A5 ->]|(A5 & _ & ->)], B5 as [[B5 ->]|(B5 & _ & ->)]; congruence.
Qed.
Lemma says_not_dir o di n t loc k : says di n t loc -> KType loc <> RootItemKey -> t <> FtDir -> names_dir o di k -> False.
Proof. intros (A1 & A2 & A3) HK HT (n2 & t2 & l2 & B1 & _ & B3 & B4 & B5). assert (l2 = loc) by congruence. assert (t2 = t) by congruence. subst. destruct B5 as [[B5 _]|(_ & B5 & _)]; congruence. Qed.
Lemma safe_readable q bad D dev o i xs : damaged bad D dev -> file_safe q bad o i -> Forall2 (is_extent q) (st_items (q_extents q o i)) xs -> Forall (usable D) xs -> Forall (ext_readable dev) xs.
Proof.
  intros [_ HG] HS HX HU. apply Forall_forall. intros x Hx. destruct x as [o0 d|o0 n|o0 n src]; try exact Logic.I. intros k b H1 H2 H3.
  rewrite Forall_forall in HU. destruct (HU _ Hx) as [_ HU1]. apply HG; [|exact H2|lia|intros p Hp; apply (HS xs o0 n src p HX Hx); lia].
  assert (Hs : 0 <= src); [|lia]. clear -HX Hx. induction HX as [|ke x l xs He HX IH]; [destruct Hx|]. destruct Hx as [->|Hx]; [|exact (IH Hx)].
  destruct ke as [k0 e]. destruct He as [(d & _ & _ & HF)|[(t & n' & _ & _ & _ & _ & HF)|(t & n' & nr & id & phys & o' & _ & _ & _ & _ & _ & _ & _ & HF)]]; try discriminate HF.
  assert (src = (phys + o') mod 2^64) by congruence. pose proof (u64_range (phys + o')) as Hu. unfold u64, is_u64 in Hu. lia.
Qed.
Lemma safe_target q bad D dev o i e t : damaged bad D dev -> link_safe q bad o i -> q_extent0 q o i = Ok (Some e) -> is_target q D e t -> path_arg t = true -> target_readable q dev e.
Proof.
  intros [_ HG] HS He Ht Hta ty' n' nr' id' phys' o' A1 A2 A3 A4 A5 A6. specialize (HS e ty' n' nr' id' phys' o').
  destruct Ht as [(HTy & Hd)|(ty & n & nr & id & phys & eo & HTy & HT0 & Hn & Hnr & Hnz & Hph & Hof & Hlen & Ht)]; [congruence|].
  assert (n' = n) by congruence. assert (nr' = nr) by congruence. subst n' nr'. assert (phys' = phys) by congruence. assert (o' = eo) by congruence. subst phys' o'. intros k b B1 B2 B3. pose proof (u64_range (phys + eo)) as Hu. unfold u64, is_u64 in Hu.
  assert (Hn1 : 0 < zlen t). { pose proof (zlen_nonneg t). destruct t as [|x t]; [discriminate|]. pose proof (zlen_cons x t). pose proof (zlen_nonneg t). lia. }
  apply HG; [lia|exact B2| |intros p Hp; apply (HS p He A1 A2 A3 A4 A5 A6); lia]. clear HS HG. unfold zlen in *. rewrite Ht in Hn1, Hlen. rewrite firstn_length, skipn_length in *. lia.
Qed.

Section Damage.
  Variables (E : env) (dest : list byte) (q : queries) (Dv : list byte).
  Hypothesis Hnd : ~ In [dot; dot] (comps dest).
  Hypothesis Hne : dest <> [].
  Notation D0 := (D0 E dest).
  Notation named := (named dest).
  Notation okp := (okp dest).
  Notation oks := (oks dest).
  Variables (cfuel : nat) (dev : readerAt) (clobber : bool) (bad : Z -> Prop).
  Hypothesis HE : no_faults E.
  Hypothesis HG : damaged bad Dv dev.
  Hypothesis HDl : zlen Dv < 2^63.
  Hypothesis Hcf : 2^64 < Z.of_nat cfuel.
  Notation all_repl := (all_repl clobber).
  (** what is asked of files and links, and what is good *)
  Variables (Sh : ask) (Gd : good).
  Hypothesis HSf : forall o i c, ask_file Sh o i c -> file_legible q o i /\ (good_file Gd o i -> file_shows q Dv o i c /\ file_safe q bad o i).
  Hypothesis HSl : forall o i t, ask_link Sh o i t -> link_legible q o i /\ (good_link Gd o i -> link_shows q Dv o i t /\ link_safe q bad o i).

  Lemma dmg_file owner i s cs c w : named s cs -> okp cs -> anc (w_fs w) (D0 ++ cs) -> part_of_tree (w_fs w) (D0 ++ cs) (TFile c) -> replaceable clobber (w_fs w) (D0 ++ cs) (TFile c) ->
    ask_file Sh owner i c ->
    exists w' ok, recoverFile cfuel E dev q clobber owner i s w = (w', Ret ok) /\ (good_file Gd owner i -> look (w_fs w') (D0 ++ cs) = Some (NFile c)).
  Proof using All.
    intros HN Hok HA HF HR HAsk. destruct (HSf _ _ _ HAsk) as [HLeg HGood]. destruct (fit_leaf _ _ (TFile c) ltac:(discriminate) HF) as [HP HB]. destruct (Hok s HN) as [O1 O2].
    assert (HL : forall t, look (w_fs w) (D0 ++ cs) <> Some (NLink t)) by (intros t; destruct HP as [->|(nd & -> & HK)]; [discriminate|intros A; injection A as ->; discriminate HK]).
    pose proof (resolve_named E dest Hnd (w_fs w) true s cs HN HA (fun _ => HL)) as HRs. rewrite O1, O2 in HRs. cbn [andb negb] in HRs.
    assert (HP' : (clobber = false /\ look (w_fs w) (D0 ++ cs) = Some (NFile c)) \/ look (w_fs w) (D0 ++ cs) = None \/ exists c0, clobber = true /\ look (w_fs w) (D0 ++ cs) = Some (NFile c0)).
    { destruct HP as [HP|(nd & HP & HK)]; [right; left; exact HP|]. destruct nd as [c0| |]; try discriminate HK. clear -HP HR. destruct clobber; [right; right; exists c0; auto|left]. destruct HR as [HR|HR]; [discriminate HR|].
      specialize (HR [] (NFile c0)). rewrite app_nil_r in HR. specialize (HR HP). cbn [tree_at top_node] in HR. split; [reflexivity|]. rewrite HP. congruence. }
    destruct HP' as [(HcF & HP')|HP'].
    { destruct (skip_file cfuel E dev q owner i s w _ c HE HRs HP') as (w' & HRun & HFS). exists w', true. rewrite HcF. split; [exact HRun|]. intros _. rewrite HFS. exact HP'. }
    destruct (file_ends cfuel E dev Dv q clobber owner i s HE (proj1 HG) Hcf HLeg w) as (wx & okx & HRx). exists wx, okx. split; [exact HRx|]. intros Hgd. destruct (HGood Hgd) as [(xs & it & H1 & H2 & H3 & H4 & H5 & H6 & H7) HSf0].
    destruct (C48_from_damaged cfuel E dev Dv q clobber owner i s w xs it (zlen c) _ HE (proj1 HG) HDl Hcf HRs HP' H1 H2 H3 H4 H5 H6) as (w' & ok & HRun & HS).
    assert (wx = w') by congruence. subst wx. destruct (HS (safe_readable _ _ _ _ _ _ _ HG HSf0 H1 H2)) as (_ & c' & HL' & Hlen & Hby & _).
    rewrite HL'. do 2 f_equal. apply byte_ext; [exact Hlen|intros j Hj; rewrite Hby by lia; rewrite H7 by lia; reflexivity].
  Qed.
  Lemma dmg_link owner i s cs t w : named s cs -> okp cs -> anc (w_fs w) (D0 ++ cs) -> part_of_tree (w_fs w) (D0 ++ cs) (TLink t) -> replaceable clobber (w_fs w) (D0 ++ cs) (TLink t) ->
    ask_link Sh owner i t ->
    exists w' ok, recoverSymlink E dev q clobber owner i s w = (w', Ret ok) /\ (good_link Gd owner i -> look (w_fs w') (D0 ++ cs) = Some (NLink t)).
  Proof using All.
    intros HN Hok HA HF HR HAsk. destruct (HSl _ _ _ HAsk) as [HLeg HGood]. destruct (fit_leaf _ _ (TLink t) ltac:(discriminate) HF) as [HP HB]. destruct (Hok s HN) as [O1 O2].
    pose proof (fun F HA => resolve_named E dest Hnd F false s cs HN HA ltac:(discriminate)) as HRs. rewrite O1, O2 in HRs. cbn [andb negb] in HRs.
    assert (HPq : (clobber = false /\ look (w_fs w) (D0 ++ cs) = Some (NLink t)) \/ (clobber = true \/ look (w_fs w) (D0 ++ cs) = None)).
    { destruct HP as [HP|(nd & HP & HK)]; [right; right; exact HP|]. destruct nd as [| |c0]; try discriminate HK. clear -HP HR. destruct clobber; [right; left; reflexivity|left]. destruct HR as [HR|HR]; [discriminate HR|].
      specialize (HR [] (NLink c0)). rewrite app_nil_r in HR. specialize (HR HP). cbn [tree_at top_node] in HR. split; [reflexivity|]. rewrite HP. congruence. }
    destruct HPq as [(HcF & HPq)|HPq].
    { destruct (skip_link E dev q owner i s w _ t HE (HRs _ HA) HPq) as (w' & HRun & HFS). exists w', true. rewrite HcF. split; [exact HRun|]. intros _. rewrite HFS. exact HPq. }
    assert (HP' : look (w_fs w) (D0 ++ cs) = None \/ (clobber = true /\ (exists x, look (w_fs w) (D0 ++ cs) = Some (NFile x) \/ look (w_fs w) (D0 ++ cs) = Some (NLink x)) /\ resolve (del (w_fs w) (D0 ++ cs)) (e_cwd E) false s = Some (D0 ++ cs))).
    { destruct HP as [HP|(nd & HP & HK)]; [left; exact HP|]. right. destruct nd as [| |c0]; try discriminate HK. split; [|split].
      - destruct HPq as [HPq|HPq]; [exact HPq|congruence].
      - exists c0. right. exact HP.
      - apply HRs. intros a b Hab Hb. rewrite look_del by (intros X; rewrite X in HP; discriminate HP). destruct (cpath_dec (D0 ++ cs) a) as [Ea|]; [|exact (HA a b Hab Hb)].
        destruct (strict_above a b _ Hab Hb). rewrite <- Ea. apply below_self. }
    destruct (link_ends E dev q clobber owner i s HE HLeg w) as (wx & okx & HRx). exists wx, okx. split; [exact HRx|]. intros Hgd. destruct (HGood Hgd) as [(e & H1 & H2 & H3) HSf0].
    destruct (C52_from_damaged E dev Dv q clobber owner i s w _ e t HE (proj1 HG) HDl (HRs _ HA) H1 H2 H3 HP') as (w' & ok & HRun & HS).
    assert (wx = w') by congruence. subst wx. exact (proj1 (proj2 (HS (safe_target _ _ _ _ _ _ _ _ HG HSf0 H1 H2 H3)))).
  Qed.

  (** what is intact among the items [l] of a directory at [P] is there *)
  Definition list_ok (F : fs) (P : cpath) (o : Z) (l : list (list byte * slice)) (kids : entries) : Prop :=
    forall k di r, In (k, di) l -> item_reaches q Gd o di r -> exists n t r', In (n, t) kids /\ r = n :: r' /\ look F ((P ++ [n]) ++ r') = tree_at t r'.
  Definition entry_ok (F : fs) (P : cpath) (o : Z) (di : slice) (n : list byte) (t : tree) : Prop :=
    forall r, item_reaches q Gd o di r -> exists r', r = n :: r' /\ look F ((P ++ [n]) ++ r') = tree_at t r'.
  Definition dmg_dir_stmt (o d : Z) (kids : entries) (ks : list (Z * Z)) : Prop := forall fuel s cs v w,
    named s cs -> anc (w_fs w) (D0 ++ cs) -> (look (w_fs w) (D0 ++ cs) = None \/ look (w_fs w) (D0 ++ cs) = Some NDir) -> all_fit (w_fs w) (D0 ++ cs) kids -> all_repl (w_fs w) (D0 ++ cs) kids ->
    look (w_fs w) D0 = Some NDir -> okp cs -> oks cs kids -> NoDup ks -> apart ks v -> (length ks <= fuel)%nat ->
    exists w' v', recoverDir fuel cfuel E dev q clobber o d s v w = (w', Ret (v', true)) /\
      (forall r, reaches q Gd o d r -> look (w_fs w') ((D0 ++ cs) ++ r) = tree_at (TDir kids) r).
  Definition dmg_list_stmt (o : Z) (l : list (list byte * slice)) (kids : entries) (ks : list (Z * Z)) : Prop := forall fuel s cs v w,
    named s cs -> anc (w_fs w) (D0 ++ cs) -> look (w_fs w) (D0 ++ cs) = Some NDir -> all_fit (w_fs w) (D0 ++ cs) kids -> all_repl (w_fs w) (D0 ++ cs) kids ->
    oks cs kids -> NoDup ks -> apart ks v -> (length ks <= fuel)%nat ->
    exists w' v', items_loop (recoverDir fuel cfuel E dev q clobber) cfuel E dev q clobber o s l v w = (w', Ret v') /\ list_ok (w_fs w') (D0 ++ cs) o l kids.
  Lemma dmg_entry (m : M (list (Z * Z))) (rest : list (Z * Z) -> M (list (Z * Z))) o k di l cs n t kids ks1 ks2 v w w1 v1 :
    anc (w_fs w) (D0 ++ cs) -> look (w_fs w) (D0 ++ cs) = Some NDir -> all_fit (w_fs w) (D0 ++ cs) ((n, t) :: kids) -> all_repl (w_fs w) (D0 ++ cs) ((n, t) :: kids) -> ~ In n (map fst kids) ->
    m w = (w1, Ret v1) -> only ((D0 ++ cs) ++ [n]) w w1 -> entry_ok (w_fs w1) (D0 ++ cs) o di n t -> joins ks1 v v1 ->
    NoDup (ks1 ++ ks2) -> apart (ks1 ++ ks2) v ->
    (anc (w_fs w1) (D0 ++ cs) -> look (w_fs w1) (D0 ++ cs) = Some NDir -> all_fit (w_fs w1) (D0 ++ cs) kids -> all_repl (w_fs w1) (D0 ++ cs) kids -> NoDup ks2 -> apart ks2 v1 ->
      exists w' v', rest v1 w1 = (w', Ret v') /\ only_kids (D0 ++ cs) (map fst kids) w1 w' /\ list_ok (w_fs w') (D0 ++ cs) o l kids) ->
    exists w' v', (v1 <~ m ;; rest v1) w = (w', Ret v') /\ list_ok (w_fs w') (D0 ++ cs) o ((k, di) :: l) ((n, t) :: kids).
  Proof.
    clear. intros HA HP HK HRp Hn Hm HO HF HJ HN Hap HR. destruct (only_kid_anc _ _ _ _ HO HA HP) as [HA1 HP1].
    assert (HN2 : NoDup ks2 /\ apart ks2 v1).
    { split; [clear -HN; induction ks1 as [|x ks1 IH]; [exact HN|]; inversion HN; auto|]. intros x Hx Hv. apply HJ in Hv as [Hv|Hv]; [|apply (Hap x); [apply in_or_app; right; exact Hx|exact Hv]].
      clear -HN Hx Hv. induction ks1 as [|y ks1 IH]; [destruct Hv|]. cbn [app] in HN. inversion HN as [|? ? A B]; subst. destruct Hv as [->|Hv]; [apply A, in_or_app; right; exact Hx|exact (IH B Hv)]. }
    destruct HN2 as [HN2 Hap2].
    destruct (HR HA1 HP1 (fit_others _ n kids w w1 HO Hn (fun x u Hx => HK x u (or_intror Hx))) (repl_others clobber _ n kids w w1 HO Hn (fun x u Hx => HRp x u (or_intror Hx))) HN2 Hap2) as (w' & v' & G1 & G2 & G3).
    exists w', v'. split; [unfold bind; rewrite Hm; exact G1|]. intros k0 di0 r [H|H] HI.
    - injection H as <- <-. destruct (HF r HI) as (r' & -> & HL). exists n, t, r'. split; [left; reflexivity|]. split; [reflexivity|]. rewrite <- HL. apply G2. intros m0 Hm0. apply (sibling_apart _ n m0); [|apply below_app]. intros ->. contradiction.
    - destruct (G3 k0 di0 r H HI) as (n0 & t0 & r' & A & B). exists n0, t0, r'. split; [right; exact A|exact B].
  Qed.
  Lemma dmg_all : (forall o d kids ks, dir_shape q Sh o d kids ks -> dmg_dir_stmt o d kids ks) /\ (forall o l kids ks, list_shape q Sh o l kids ks -> dmg_list_stmt o l kids ks).
  Proof using All.
    destruct (any_all E dest q Sh Hnd Hne) as [ANYd ANYl]. pose proof (no_calm E HE) as HC. apply shows_mutind.
    - (* directory *)
      intros o d kids ks Hend HL IH. intros fuel s cs v w HN HA HTop HF HRp HD Hok Hoks HND Hap Hfu. destruct fuel as [|fuel]; [cbn [length] in Hfu; lia|]. cbn [recoverDir].
      replace (key_in (o, d) v) with false by (symmetry; destruct (key_in (o, d) v) eqn:EK; [|reflexivity]; apply key_in_In in EK; destruct (Hap (o, d)); [left; reflexivity|exact EK]).
      cbv zeta. destruct (mkall_calm E dest Hnd s cs w HC HN Hok HA HTop HD) as (w1 & r & HM & Hr).
      assert (r = Ret true) as -> by (destruct Hr as [Hr|Hr]; [exact Hr|]; subst r; destruct (mkall_nocrash E HE _ _ _ HM)).
      unfold bind at 1. rewrite HM. cbn [negb]. unfold bind at 1, emit at 1. unfold bind at 1, lift at 1. rewrite Hend.
      pose proof (Rm_mkall E dest _ s (named_upto E dest Hnd s cs HN) _ _ _ HM) as HRm. pose proof (Rm_only _ _ _ HA HRm) as HO1.
      assert (Hother : forall p, p <> D0 ++ cs -> look (w_fs w1) p = look (w_fs w) p).
      { intros p Hp. destruct (HRm HA) as [->|[H1 ->]]; [reflexivity|]. apply look_put_other; [exact Hp|exact (none_root _ _ H1)]. }
      assert (Hk : forall n r, look (w_fs w1) (((D0 ++ cs) ++ [n]) ++ r) = look (w_fs w) (((D0 ++ cs) ++ [n]) ++ r)) by (intros n r; apply Hother; rewrite <- app_assoc; apply ext_ne; discriminate).
      assert (HF1 : all_fit (w_fs w1) (D0 ++ cs) kids) by (intros n t Hin; apply (fit_same (w_fs w)); [apply Hk|exact (HF n t Hin)]).
      assert (HR1 : all_repl (w_fs w1) (D0 ++ cs) kids) by (intros n t Hin; apply (repl_same _ (w_fs w)); [apply Hk|exact (HRp n t Hin)]).
      assert (HD1 : look (w_fs w1) (D0 ++ cs) = Some NDir). { apply (mkall_true E dest Hnd s cs w); [exact HN|exact HA| |exact HM]. intros t. destruct HTop as [->| ->]; discriminate. }
      set (w1' := mkWorld (w_fs w1) (w_ops w1) (EvList o d :: w_log w1)). assert (HA1 : anc (w_fs w1') (D0 ++ cs)) by exact (anc_only _ _ _ HO1 HA). inversion HND as [|? ? N1 N2]; subst.
      assert (Hap1 : apart ks ((o, d) :: v)). { intros x Hx [<-|Hx']; [contradiction|]. apply (Hap x); [right; exact Hx|exact Hx']. }
      cbn [length] in Hfu. destruct (IH fuel s cs ((o, d) :: v) w1' HN HA1 HD1 HF1 HR1 Hoks N2 Hap1 ltac:(lia)) as (w' & v' & G1 & G2). exists w', v'. unfold bind at 1. rewrite G1.
      destruct (ANYl _ _ _ _ HL _ _ _ _ _ _ _ _ _ _ HN HA1 HD1 HF1 G1) as (K1 & _ & _). split; [reflexivity|].
      intros r HI. inversion HI as [|? ? k di ? H1 H2]; subst.
      + rewrite app_nil_r. rewrite K1; [exact HD1|intros n _; apply kid_not_parent].
      + destruct (G2 k di r H1 H2) as (n & t & r' & A & -> & B). rewrite <- app_assoc in B. cbn [app] in B. cbn [tree_at]. rewrite (In_pick _ _ _ (list_nodup _ _ _ _ _ _ HL) A). exact B.
    - intros o. intros fuel s cs v w _ _ _ _ _ _ _ _ _. exists w, v. cbn [items_loop]. split; [reflexivity|]. intros k di r [].
    - (* file *)
      intros o k di l n loc c kids ks Hs Hr Hfs Hn Hin HLs IH. intros fuel s cs v w HN HA HP HK HRp Hoks HND Hap Hfu. cbn [items_loop].
      rewrite (classify_file o s di n loc Hs Hr Hn). unfold bind at 1, lift at 1.
      pose proof (HK n _ (or_introl eq_refl)) as HKn. pose proof (HRp n _ (or_introl eq_refl)) as HRn. pose proof (named_join dest Hnd Hne s cs n HN (proj1 Hn)) as HNn.
      pose proof (anc_child _ _ n HA HP) as HAn. rewrite <- app_assoc in HKn, HAn, HRn. assert (Hokn : okp (cs ++ [n])) by (apply (Hoks n _ [] (or_introl eq_refl)); discriminate).
      destruct (dmg_file o (ObjectID loc) (Join s n) _ c w HNn Hokn HAn HKn HRn Hfs) as (w1 & ok & HRun & HH). destruct (any_file E dest q Hnd _ _ _ _ _ _ _ _ _ _ _ HNn HAn HKn HRun) as [HO1 _]. rewrite app_assoc in HO1, HH.
      destruct ((if ok then ret tt else emit (EvWarn WFile (Join s n))) w1) as [w2 o2] eqn:EW. pose proof EW as EW'. apply warn_fs in EW' as [EF ->].
      refine (dmg_entry _ _ o k di l cs n (TFile c) kids [] ks v w w2 v HA HP HK HRp Hin _ _ _ _ HND Hap _).
      + unfold bind at 1. rewrite HRun. unfold bind at 1. rewrite EW. reflexivity.
      + intros p Hp. rewrite EF. apply HO1. exact Hp.
      + intros r HI. rewrite EF. inversion HI as [? ? n' loc' S1 S2 S3|? ? n' loc' S1 S2 S3|? ? n' o' d' r' S1 S2 S3]; subst.
        * destruct Hs as (A1 & A2 & A3), S1 as (B1 & B2 & B3). assert (n' = n) by congruence. assert (loc' = loc) by congruence. subst. exists []. split; [reflexivity|]. rewrite app_nil_r. exact (HH S3).
        * destruct Hs as (A1 & A2 & A3), S1 as (B1 & B2 & B3). rewrite A2 in B2. discriminate.
        * destruct (says_not_dir _ _ _ _ _ _ Hs Hr ltac:(discriminate) S2).
      + intros x. cbn [In]. tauto.
      + intros HA1 HP1 HK1 HR1 HN2 Hap2. assert (Hoks2 : oks cs kids) by (intros m0 u r Hm0; apply Hoks; right; exact Hm0).
        destruct (IH fuel s cs v w2 HN HA1 HP1 HK1 HR1 Hoks2 HN2 Hap2 Hfu) as (w' & v' & G1 & G2). exists w', v'. split; [exact G1|]. split; [exact (proj1 (ANYl _ _ _ _ HLs _ _ _ _ _ _ _ _ _ _ HN HA1 HP1 HK1 G1))|auto].
    - (* link *)
      intros o k di l n loc c kids ks Hs Hr Hfs Hn Hin HLs IH. intros fuel s cs v w HN HA HP HK HRp Hoks HND Hap Hfu. cbn [items_loop].
      rewrite (classify_link o s di n loc Hs Hr Hn). unfold bind at 1, lift at 1.
      pose proof (HK n _ (or_introl eq_refl)) as HKn. pose proof (HRp n _ (or_introl eq_refl)) as HRn. pose proof (named_join dest Hnd Hne s cs n HN (proj1 Hn)) as HNn.
      pose proof (anc_child _ _ n HA HP) as HAn. rewrite <- app_assoc in HKn, HAn, HRn. assert (Hokn : okp (cs ++ [n])) by (apply (Hoks n _ [] (or_introl eq_refl)); discriminate).
      destruct (dmg_link o (ObjectID loc) (Join s n) _ c w HNn Hokn HAn HKn HRn Hfs) as (w1 & ok & HRun & HH). destruct (any_link E dest q Hnd _ _ _ _ _ _ _ _ _ _ HNn HAn HKn HRun) as [HO1 _]. rewrite app_assoc in HO1, HH.
      destruct ((if ok then ret tt else emit (EvWarn WLink (Join s n))) w1) as [w2 o2] eqn:EW. pose proof EW as EW'. apply warn_fs in EW' as [EF ->].
      refine (dmg_entry _ _ o k di l cs n (TLink c) kids [] ks v w w2 v HA HP HK HRp Hin _ _ _ _ HND Hap _).
      + unfold bind at 1. rewrite HRun. unfold bind at 1. rewrite EW. reflexivity.
      + intros p Hp. rewrite EF. apply HO1. exact Hp.
      + intros r HI. rewrite EF. inversion HI as [? ? n' loc' S1 S2 S3|? ? n' loc' S1 S2 S3|? ? n' o' d' r' S1 S2 S3]; subst.
        * destruct Hs as (A1 & A2 & A3), S1 as (B1 & B2 & B3). rewrite A2 in B2. discriminate.
        * destruct Hs as (A1 & A2 & A3), S1 as (B1 & B2 & B3). assert (n' = n) by congruence. assert (loc' = loc) by congruence. subst. exists []. split; [reflexivity|]. rewrite app_nil_r. exact (HH S3).
        * destruct (says_not_dir _ _ _ _ _ _ Hs Hr ltac:(discriminate) S2).
      + intros x. cbn [In]. tauto.
      + intros HA1 HP1 HK1 HR1 HN2 Hap2. assert (Hoks2 : oks cs kids) by (intros m0 u r Hm0; apply Hoks; right; exact Hm0).
        destruct (IH fuel s cs v w2 HN HA1 HP1 HK1 HR1 Hoks2 HN2 Hap2 Hfu) as (w' & v' & G1 & G2). exists w', v'. split; [exact G1|]. split; [exact (proj1 (ANYl _ _ _ _ HLs _ _ _ _ _ _ _ _ _ _ HN HA1 HP1 HK1 G1))|auto].
    - (* subdirectory *)
      intros o k di l n o' d' sub kids ks1 ks2 Hs Hr Hsub IHs Hn Hin HLs IH. intros fuel s cs v w HN HA HP HK HRp Hoks HND Hap Hfu. cbn [items_loop].
      rewrite (classify_dir o s di n o' d' Hs Hr). unfold bind at 1, lift at 1. rewrite app_length in Hfu.
      pose proof (HK n _ (or_introl eq_refl)) as HKn. pose proof (HRp n _ (or_introl eq_refl)) as HRn. pose proof (named_join dest Hnd Hne s cs n HN (proj1 Hn)) as HNn.
      pose proof (anc_child _ _ n HA HP) as HAn. rewrite <- app_assoc in HKn, HAn, HRn. assert (Hokn : okp (cs ++ [n])) by (apply (Hoks n _ [] (or_introl eq_refl)); discriminate).
      assert (HNs : NoDup (map fst sub)) by (inversion Hsub; eapply list_nodup; eassumption). pose proof (whole_fit _ _ _ HNs HKn) as HFs.
      assert (HRs : all_repl (w_fs w) (D0 ++ cs ++ [n]) sub) by exact (repl_sub _ _ _ _ HNs HRn).
      assert (Hoksn : oks (cs ++ [n]) sub).
      { intros m u r Hm Hr0. replace ((cs ++ [n]) ++ m :: r) with (cs ++ n :: m :: r) by (rewrite <- app_assoc; reflexivity). apply (Hoks n (TDir sub) (m :: r) (or_introl eq_refl)). cbn [tree_at]. rewrite (In_pick _ _ _ HNs Hm). exact Hr0. }
      assert (N1 : NoDup ks1 /\ apart ks1 v).
      { split; [clear -HND; induction ks1 as [|x ks1 IH]; [constructor|]; inversion HND as [|? ? A B]; subst; constructor; [intros Hx; apply A, in_or_app; left; exact Hx|exact (IH B)]|]. intros x Hx. apply Hap, in_or_app. left. exact Hx. }
      destruct N1 as [N1 Hap1].
      destruct (IHs fuel (Join s n) (cs ++ [n]) v w HNn HAn (fit_top _ _ _ HKn) HFs HRs (d0_dir _ _ _ _ HA HP) Hokn Hoksn N1 Hap1 ltac:(lia)) as (w1 & v1 & HRun & HH).
      destruct (ANYd _ _ _ _ Hsub _ _ _ _ _ _ _ _ _ _ HNn HAn (fit_top _ _ _ HKn) HFs HRun) as (K1 & K2 & K3 & K4). destruct (K4 HC (d0_dir _ _ _ _ HA HP) Hokn Hoksn N1 Hap1 _ _ eq_refl) as [_ HJ].
      destruct (dir_as_whole _ _ _ _ HKn HNs K1 K2 K3) as [HO1 _].
      rewrite app_assoc in HO1, HH.
      refine (dmg_entry _ _ o k di l cs n (TDir sub) kids ks1 ks2 v w w1 v1 HA HP HK HRp Hin _ HO1 _ HJ HND Hap _).
      + unfold bind at 1. rewrite HRun. reflexivity.
      + intros r HI. inversion HI as [? ? n' loc' S1 S2 S3|? ? n' loc' S1 S2 S3|? ? n' o'' d'' r' S1 S2 S3]; subst.
        * destruct (says_not_dir _ _ _ _ _ _ S1 S2 ltac:(discriminate) Hr).
        * destruct (says_not_dir _ _ _ _ _ _ S1 S2 ltac:(discriminate) Hr).
        * assert (n' = n) by congruence. subst n'. pose proof (names_key _ _ _ _ S2 Hr) as EK. assert (o'' = o') by congruence. assert (d'' = d') by congruence. subst. exists r'. split; [reflexivity|]. exact (HH r' S3).
      + intros HA1 HP1 HK1 HR1 HN2 Hap2. assert (Hoks2 : oks cs kids) by (intros m0 u r Hm0; apply Hoks; right; exact Hm0).
        destruct (IH fuel s cs v1 w1 HN HA1 HP1 HK1 HR1 Hoks2 HN2 Hap2 ltac:(lia)) as (w' & v' & G1 & G2). exists w', v'. split; [exact G1|]. split; [exact (proj1 (ANYl _ _ _ _ HLs _ _ _ _ _ _ _ _ _ _ HN HA1 HP1 HK1 G1))|auto].
    - (* other *)
      intros o k di l n t loc kids ks Hs Hr H1 H2 H3 _ IH. intros fuel s cs v w HN HA HP HK HRp Hoks HND Hap Hfu. cbn [items_loop].
      rewrite (classify_other o s di n t loc Hs Hr H1 H2 H3). unfold bind at 1, lift at 1. unfold bind at 1, ret at 1. destruct (IH fuel s cs v w HN HA HP HK HRp Hoks HND Hap Hfu) as (w' & v' & G1 & G2). exists w', v'. split; [exact G1|].
      intros k0 di0 r [H|H] HI; [|exact (G2 k0 di0 r H HI)]. exfalso. injection H as <- <-. inversion HI as [? ? n' loc' S1 S2 S3|? ? n' loc' S1 S2 S3|? ? n' o'' d'' r' S1 S2 S3]; subst.
      + destruct Hs as (A1 & A2 & A3), S1 as (B1 & B2 & B3). congruence.
      + destruct Hs as (A1 & A2 & A3), S1 as (B1 & B2 & B3). congruence.
      + destruct (says_not_dir _ _ _ _ _ _ Hs Hr H3 S2).
  Qed.
End Damage.

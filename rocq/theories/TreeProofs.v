(** How recover moves through a plain destination. *)
From Verif Require Import Go GoProofs Layout KeyFmt Bolt Store Fs Recover RecoverProofs SpecFs SpecContent PathProofs PropsRecoverPaths FsProofs PropsRecoverSafe PropsRecoverDfs PropsRecoverFile PropsRecoverLink SpecTree.
From Coq Require Import ZifyBool ZifyNat ZifyN.
Ltac Zify.zify_post_hook ::= Z.div_mod_to_equations.

(** ** prefixes *)
Lemma below_self P : at_or_below P P.
Proof. exists []. rewrite app_nil_r. reflexivity. Qed.
Lemma below_app P r : at_or_below P (P ++ r).
Proof. exists r. reflexivity. Qed.
Lemma below_trans P Q r : at_or_below P Q -> at_or_below Q r -> at_or_below P r.
Proof. intros [a ->] [b ->]. exists (a ++ b). rewrite app_assoc. reflexivity. Qed.
Lemma strict_above (a b P : cpath) : P = a ++ b -> b <> [] -> ~ at_or_below P a.
Proof.
  intros -> Hb [r H]. rewrite <- app_assoc in H. rewrite <- (app_nil_r a) in H at 1. apply app_inv_head in H. symmetry in H. apply app_eq_nil in H as [H _]. contradiction.
Qed.
Lemma siblings (P : cpath) n m r r' : P ++ n :: r = P ++ m :: r' -> n = m.
Proof. intros H. apply app_inv_head in H. injection H as H _. exact H. Qed.
Lemma sibling_apart P n m p : n <> m -> at_or_below (P ++ [n]) p -> ~ at_or_below (P ++ [m]) p.
Proof. intros Hn [r ->] [r' H]. rewrite <- !app_assoc in H. cbn [app] in H. apply siblings in H. contradiction. Qed.

(** ** the places *)
(** every proper ancestor of [P] is a directory *)
Definition anc (F : fs) (P : cpath) : Prop := forall a b, P = a ++ b -> b <> [] -> look F a = Some NDir.
(** nothing but what is at or below [P] changed *)
Definition only (P : cpath) (w w' : world) : Prop := forall p, ~ at_or_below P p -> look (w_fs w') p = look (w_fs w) p.
Lemma only_refl P w : only P w w. Proof. intros p _. reflexivity. Qed.
Lemma only_trans P a b c : only P a b -> only P b c -> only P a c.
Proof. intros H1 H2 p Hp. rewrite H2, H1 by exact Hp. reflexivity. Qed.
Lemma only_up P Q a b : at_or_below P Q -> only Q a b -> only P a b.
Proof. intros HB H p Hp. apply H. intros HQ. apply Hp. exact (below_trans _ _ _ HB HQ). Qed.
Lemma only_fs P a b : w_fs b = w_fs a -> only P a b.
Proof. intros H p _. rewrite H. reflexivity. Qed.
Lemma anc_only P w w' : only P w w' -> anc (w_fs w) P -> anc (w_fs w') P.
Proof. intros HO HA a b Hab Hb. rewrite HO; [exact (HA a b Hab Hb)|exact (strict_above a b P Hab Hb)]. Qed.
Lemma anc_child F P n : anc F P -> look F P = Some NDir -> anc F (P ++ [n]).
Proof.
  intros HA HP a b Hab Hb. destruct b as [|x b _] using rev_ind; [congruence|]. rewrite app_assoc in Hab. apply app_inj_tail in Hab as [Hab _].
  destruct b as [|y b]; [rewrite app_nil_r in Hab; subst; exact HP|]. apply (HA a (y :: b)); [exact Hab|discriminate].
Qed.
Lemma wf_prefix F : wf_fs F -> forall b a, look F (a ++ b) = Some NDir -> look F a = Some NDir.
Proof.
  intros W. induction b as [|x b IH] using rev_ind; intros a H; [rewrite app_nil_r in H; exact H|]. apply IH. apply (W (a ++ b) x). rewrite <- app_assoc. congruence.
Qed.

Section Dest.
  Variables (E : env) (dest : list byte).
  Hypothesis Hnd : ~ In [dot; dot] (comps dest).
  Hypothesis Hne : dest <> [].
  Definition base : cpath := if is_abs dest then [] else e_cwd E.
  Definition D0 : cpath := base ++ comps dest.
  (** [s] is the path recover uses for the entry [cs] of the destination *)
  Definition named (s : list byte) (cs : cpath) : Prop := Forall plain cs /\ ((cs = [] /\ s = dest) \/ s = sub_path (Clean dest) cs).
  Lemma dd_spec c : is_dotdot c = true -> c = [dot; dot].
  Proof. unfold is_dotdot. apply bytes_eqb_eq. Qed.
  Lemma clean_plain r l : forall st, ~ In [dot; dot] l -> clean_comps r l st = rev st ++ l.
  Proof.
    clear. induction l as [|c l IH]; intros st H; cbn [clean_comps]; [rewrite app_nil_r; reflexivity|].
    destruct (is_dotdot c) eqn:EC; [apply dd_spec in EC; subst; destruct H; left; reflexivity|]. rewrite IH by (intros A; apply H; right; exact A).
    cbn [rev]. rewrite <- app_assoc. reflexivity.
  Qed.
  Lemma cstack_dest : cstack dest = comps dest.
  Proof using Hnd. unfold cstack. rewrite clean_plain by exact Hnd. reflexivity. Qed.
  Lemma named_comps s cs : named s cs -> comps s = comps dest ++ cs /\ is_abs s = is_abs dest.
  Proof using Hnd.
    intros [HF [[-> ->]| ->]]; [rewrite app_nil_r; auto|]. pose proof (canon_apps _ _ _ (cstack_canon dest) HF) as HC. rewrite inside_render by exact HF. rewrite comps_render, render_abs by exact HC. rewrite cstack_dest. auto.
  Qed.
  Lemma named_join s cs n : named s cs -> plain n -> named (Join s n) (cs ++ [n]).
  Proof using Hnd Hne.
    intros [HF HS] Hn. assert (HF' : Forall plain (cs ++ [n])) by (apply Forall_app; auto). split; [exact HF'|]. right. rewrite inside_render by exact HF'. rewrite app_assoc.
    destruct HS as [[-> ->]| ->]; [rewrite app_nil_r; apply Join_plain; assumption|].
    pose proof (canon_apps _ _ _ (cstack_canon dest) HF) as HC. rewrite inside_render by exact HF. rewrite Join_plain by (try exact Hn; apply render_nonnil; exact HC). rewrite render_abs, cstack_render by exact HC. reflexivity.
  Qed.
  Lemma named_nodd s cs : named s cs -> ~ In [dot; dot] (comps s).
  Proof using Hnd.
    intros HN. destruct (named_comps s cs HN) as [-> _]. destruct HN as [HF _]. intros H. apply in_app_or in H as [H|H]; [exact (Hnd H)|].
    rewrite Forall_forall in HF. destruct (HF _ H) as (_ & _ & A & _). congruence.
  Qed.
  (** where there are only directories on the way, the path leads where it says *)
  Lemma walk_anc F fl : forall cs L cur, ~ In [dot; dot] cs -> (forall a b, cs = a ++ b -> b <> [] -> a <> [] -> look F (cur ++ a) = Some NDir) ->
    (fl = true -> forall t, cs <> [] -> look F (cur ++ cs) <> Some (NLink t)) ->
    walk L F fl cs cur = if existsb long_name cs then None else Some (cur ++ cs).
  Proof.
    clear. induction cs as [|c cs IH]; intros L cur Hdd HA HL; [rewrite walk_nil, app_nil_r; reflexivity|]. rewrite walk_cons. cbn [existsb].
    replace (is_dotdot c) with false by (symmetry; destruct (is_dotdot c) eqn:EC; [apply dd_spec in EC; subst; destruct Hdd; left; reflexivity|reflexivity]).
    destruct (long_name c) eqn:ELN; cbn [orb]; [reflexivity|]. destruct cs as [|c2 cs].
    - cbn [existsb]. destruct (look F (cur ++ [c])) as [[x| |t]|] eqn:EL; try reflexivity; [rewrite walk_nil; reflexivity|].
      destruct fl; cbn [negb]; [|reflexivity]. destruct (HL eq_refl t ltac:(discriminate) eq_refl).
    - rewrite (HA [c] (c2 :: cs)) by (try reflexivity; discriminate). rewrite IH.
      + rewrite <- app_assoc. reflexivity.
      + intros H. apply Hdd. right. exact H.
      + intros a b Hab Hb Ha. rewrite <- app_assoc. apply (HA (c :: a) b); [rewrite Hab; reflexivity|exact Hb|discriminate].
      + intros Hf t _. rewrite <- app_assoc. apply HL; [exact Hf|discriminate].
  Qed.
  Lemma resolve_named F fl s cs : named s cs -> anc F (D0 ++ cs) -> (fl = true -> forall t, look F (D0 ++ cs) <> Some (NLink t)) ->
    resolve F (e_cwd E) fl s = if path_arg s && negb (existsb long_name (comps s)) then Some (D0 ++ cs) else None.
  Proof using Hnd.
    intros HN HA HL. pose proof (named_nodd s cs HN) as Hdd. destruct (named_comps s cs HN) as [HC HAb]. unfold resolve. destruct (path_arg s); [|reflexivity]. cbn [andb]. rewrite HAb. fold base.
    rewrite walk_anc.
    - rewrite HC. unfold D0. rewrite <- app_assoc. destruct (existsb _ _); reflexivity.
    - exact Hdd.
    - intros a b Hab Hb Ha. apply (HA (base ++ a) b); [|exact Hb]. unfold D0. rewrite <- !app_assoc. f_equal. rewrite <- Hab. symmetry. exact HC.
    - intros Hf t _. rewrite HC. unfold D0 in HL. rewrite <- app_assoc in HL. exact (HL Hf t).
  Qed.
  (** ** MkdirAll *)
  (** [s] spells an ancestor of [P], or [P] *)
  Definition upto (P : cpath) (s : list byte) : Prop := ~ In [dot; dot] (comps s) /\ is_abs s = is_abs dest /\ exists b, P = base ++ comps s ++ b.
  Lemma upto_parent P s p : upto P s -> parent_of s = Some p -> upto P p.
  Proof.
    intros (A & B & b & C) HP. destruct (parent_leading _ _ HP) as (Hp & (r & ->) & _). rewrite comps_app in *. rewrite is_abs_app in B by exact Hp.
    split; [intros H; apply A; apply in_or_app; left; exact H|]. split; [exact B|]. exists (comps r ++ b). rewrite C, <- app_assoc. reflexivity.
  Qed.
  Lemma named_upto s cs : named s cs -> upto (D0 ++ cs) s.
  Proof using Hnd.
    intros HN. split; [exact (named_nodd s cs HN)|]. destruct (named_comps s cs HN) as [HC HA]. split; [exact HA|]. exists []. rewrite app_nil_r, HC. unfold D0. rewrite <- app_assoc. reflexivity.
  Qed.
  Lemma resolve_upto F fl P s p : upto P s -> anc F P -> (fl = true -> forall t, look F P <> Some (NLink t)) ->
    resolve F (e_cwd E) fl s = Some p -> p = base ++ comps s.
  Proof.
    intros (A & B & b & C) HA HL HR. unfold resolve in HR. destruct (path_arg s); [|discriminate]. rewrite B in HR. fold base in HR. rewrite walk_anc in HR.
    - destruct (existsb _ _); [discriminate|]. injection HR as <-. reflexivity.
    - exact A.
    - intros a b' Hab Hb' _. apply (HA (base ++ a) (b' ++ b)); [rewrite C, Hab, <- !app_assoc; reflexivity|]. intros H. apply app_eq_nil in H as [H _]. contradiction.
    - intros Hf t _. destruct b as [|x b]; [rewrite app_nil_r in C; rewrite <- C; exact (HL Hf t)|]. rewrite (HA (base ++ comps s) (x :: b)) by (try discriminate; rewrite C, <- app_assoc; reflexivity). discriminate.
  Qed.
  Definition Rm (P : cpath) (w w' : world) : Prop :=
    anc (w_fs w) P -> w_fs w' = w_fs w \/ (look (w_fs w) P = None /\ w_fs w' = put_node (w_fs w) P NDir).
  Lemma put_anc F P n : P <> [] -> anc F P -> anc (put_node F P n) P.
  Proof.
    intros HP HA a b Hab Hb. rewrite look_put by exact HP. destruct (cpath_dec P a) as [->|]; [|exact (HA a b Hab Hb)].
    destruct (strict_above a b a Hab Hb). apply below_self.
  Qed.
  Lemma none_root F P : look F P = None -> P <> [].
  Proof. intros H ->. discriminate. Qed.
  Lemma Rm_refl P w : Rm P w w. Proof. intros _. left. reflexivity. Qed.
  Lemma Rm_trans P a b c : Rm P a b -> Rm P b c -> Rm P a c.
  Proof.
    intros H1 H2 HA. destruct (H1 HA) as [E1|[E1 E2]].
    - unfold Rm in H2. rewrite E1 in H2. exact (H2 HA).
    - unfold Rm in H2. rewrite E2 in H2. pose proof (none_root _ _ E1) as Hr. destruct (H2 (put_anc _ _ _ Hr HA)) as [E3|[E3 _]]; [right; split; [exact E1|congruence]|].
      rewrite look_put_same in E3 by exact Hr. discriminate.
  Qed.
  Lemma Rm_stat P k fl s : keeps (Rm P) (syscall E k s (sys_stat (e_cwd E) fl s) nothing).
  Proof. intros w w' o H _. apply syscall_cases in H as [(F & r & _ & EF & -> & _)|(n & -> & _)]; left; [unfold sys_stat in EF; injection EF as <- _|]; reflexivity. Qed.
  Lemma Rm_mkdir P s : upto P s -> keeps (Rm P) (Mkdir E s).
  Proof.
    intros HU w w' o H HA. apply syscall_cases in H as [(F & r & _ & EF & -> & _)|(n & -> & _)]; [|left; reflexivity]. unfold sys_mkdir in EF.
    destruct (resolve (w_fs w) (e_cwd E) false s) as [p|] eqn:ER; [|injection EF as <- _; left; reflexivity]. apply (resolve_upto _ _ P) in ER; [|exact HU|exact HA|discriminate].
    destruct (look (w_fs w) p) eqn:EL; [injection EF as <- _; left; reflexivity|]. injection EF as <- _. destruct HU as (_ & _ & b & C).
    assert (p = P). { subst p. destruct b as [|x b]; [rewrite app_nil_r in C; congruence|]. rewrite (HA (base ++ comps s) (x :: b)) in EL by (try discriminate; rewrite C, <- app_assoc; reflexivity). discriminate. }
    subst P. right. rewrite <- H. auto.
  Qed.
  Lemma Rm_mkall P s : upto P s -> keeps (Rm P) (MkdirAll E s).
  Proof.
    intros HU. apply (keeps_mkall (Rm P) (Rm_refl P) (Rm_trans P) E (upto P)); [intros s1 p H1 HP; exact (upto_parent P s1 p H1 HP)| | |intros s1 H1; apply Rm_mkdir; exact H1|exact HU]; intros s1 _; apply Rm_stat.
  Qed.
  Lemma Rm_only P w w' : anc (w_fs w) P -> Rm P w w' -> only P w w'.
  Proof.
    intros HA HR. destruct (HR HA) as [H|[H1 H2]]; [apply only_fs; exact H|]. intros p Hp. rewrite H2. apply look_put_other; [intros ->; apply Hp; apply below_self|exact (none_root _ _ H1)].
  Qed.
  (** success means the directory is there *)
  Lemma mkall_true s cs w w' : named s cs -> anc (w_fs w) (D0 ++ cs) -> (forall t, look (w_fs w) (D0 ++ cs) <> Some (NLink t)) ->
    MkdirAll E s w = (w', Ret true) -> look (w_fs w') (D0 ++ cs) = Some NDir.
  Proof using Hnd.
    intros HN HA HL H. set (P := D0 ++ cs) in *. pose proof (named_upto s cs HN) as HU. fold P in HU. unfold MkdirAll in H. destruct (S (length s)) as [|f] eqn:EF; [discriminate EF|]. cbn [MkdirAll_loop] in H.
    destruct (named_comps s cs HN) as [HC _]. assert (HPs : base ++ comps s = P) by (rewrite HC; unfold P, D0; rewrite <- app_assoc; reflexivity).
    apply bind_ret_inv in H as (w1 & k & HS & H). pose proof (Rm_stat P _ _ _ _ _ _ HS HA) as HR1.
    assert (HF1 : w_fs w1 = w_fs w). { destruct HR1 as [HR1|[HR1 HR2]]; [exact HR1|]. unfold Stat in HS. apply syscall_cases in HS as [(F & r & _ & EF' & -> & _)|(n & -> & _)]; [unfold sys_stat in EF'; injection EF' as <- _|]; reflexivity. }
    assert (Hst : forall w1 w2 fl opk0 k, anc (w_fs w1) P -> (forall t, look (w_fs w1) P <> Some (NLink t)) -> syscall E opk0 s (sys_stat (e_cwd E) fl s) nothing w1 = (w2, Ret (Some k)) -> option_map kind_of (look (w_fs w1) P) = Some k /\ w_fs w2 = w_fs w1).
    { clear -HU HPs Hnd. intros w1 w2 fl opk0 k HA HL H. apply syscall_cases in H as [(F & r & _ & EF & -> & ER)|(n & -> & [[ER _]|ER])]; [|discriminate|discriminate]. unfold sys_stat in EF. injection EF as <- EF. injection ER as <-.
      destruct (resolve (w_fs w1) (e_cwd E) fl s) as [p|] eqn:ERp; [|discriminate]. apply (resolve_upto _ _ P) in ERp; [|exact HU|exact HA|intros _; exact HL]. rewrite HPs in ERp. subst p. auto. }
    destruct k as [[]|]; try (apply ret_inv in H as [H _]; discriminate).
    - apply ret_inv in H as [_ ->]. destruct (Hst _ _ _ _ _ HA HL HS) as [HK _]. rewrite HF1. destruct (look (w_fs w) P) as [[]|]; try discriminate. reflexivity.
    - clear HR1. assert (HA1 : anc (w_fs w1) P) by (rewrite HF1; exact HA). assert (HL1 : forall t, look (w_fs w1) P <> Some (NLink t)) by (rewrite HF1; exact HL).
      apply bind_ret_inv in H as (w2 & ok & HM & H). assert (HRm : Rm P w1 w2).
      { destruct (parent_of s) as [p|] eqn:EP; [|apply ret_inv in HM as [_ ->]; apply Rm_refl].
        refine (keeps_mkall_loop (Rm P) (Rm_refl P) (Rm_trans P) E (upto P) _ _ _ _ f p (upto_parent P s p HU EP) _ _ _ HM); [intros s1 p1 H1 HP1; exact (upto_parent P s1 p1 H1 HP1)| | |intros s1 H1; apply Rm_mkdir; exact H1]; intros s1 _; apply Rm_stat. }
      destruct ok; [|apply ret_inv in H as [H _]; discriminate].
      assert (HX : anc (w_fs w2) P /\ (forall t, look (w_fs w2) P <> Some (NLink t))).
      { destruct (HRm HA1) as [->|[H1 H2]]; [auto|]. pose proof (none_root _ _ H1) as Hr. rewrite H2. split; [apply put_anc; assumption|]. intros t. rewrite look_put_same by exact Hr. discriminate. }
      destruct HX as [HA2 HL2]. apply bind_ret_inv in H as (w3 & r & HD & H). destruct r as [[]|].
      + apply ret_inv in H as [_ ->]. unfold Mkdir in HD. apply syscall_cases in HD as [(F & r & _ & EFF & -> & ER)|(n & _ & [[ER _]|ER])]; [|discriminate|discriminate]. injection ER as <-. unfold sys_mkdir in EFF.
        destruct (resolve (w_fs w2) (e_cwd E) false s) as [p|] eqn:ERp; [|discriminate]. apply (resolve_upto _ _ P) in ERp; [|exact HU|exact HA2|discriminate]. rewrite HPs in ERp. subst p.
        destruct (look (w_fs w2) P) eqn:EL; [discriminate|]. injection EFF as <-. apply look_put_same. exact (none_root _ _ EL).
      + pose proof (Rm_mkdir P s HU _ _ _ HD HA2) as HR3.
        assert (HX : anc (w_fs w3) P /\ (forall t, look (w_fs w3) P <> Some (NLink t))).
        { destruct HR3 as [->|[H1 H2]]; [auto|]. pose proof (none_root _ _ H1) as Hr. rewrite H2. split; [apply put_anc; assumption|]. intros t. rewrite look_put_same by exact Hr. discriminate. }
        destruct HX as [HA3 HL3]. apply bind_ret_inv in H as (w4 & k & HK & H). apply ret_inv in H as [H ->]. destruct k as [[]|]; try discriminate H.
        destruct (Hst _ _ _ _ _ HA3 HL3 HK) as [HZ ->]. destruct (look (w_fs w3) P) as [[]|]; try discriminate. reflexivity.
  Qed.
  (** ** directories without failures *)
  (** directory operations do not fail by themselves (the process may be killed) *)
  Definition calm : Prop := forall n k m, k = OStat \/ k = OLstat \/ k = OMkdir -> e_faults E n k <> FErr m.
  (** the path of entry [cs] is accepted by the operating system *)
  Definition okp (cs : cpath) : Prop := forall s, named s cs -> path_arg s = true /\ existsb long_name (comps s) = false.
  Lemma stat_calm s fl k cs w : (k = OStat \/ k = OLstat) -> calm -> named s cs -> okp cs -> anc (w_fs w) (D0 ++ cs) -> (forall t, look (w_fs w) (D0 ++ cs) <> Some (NLink t)) ->
    exists w', w_fs w' = w_fs w /\ (syscall E k s (sys_stat (e_cwd E) fl s) nothing w = (w', Ret (option_map kind_of (look (w_fs w) (D0 ++ cs)))) \/ syscall E k s (sys_stat (e_cwd E) fl s) nothing w = (w', OCrash)).
  Proof using Hnd.
    intros Hk HC HN HO HA HL. destruct (HO s HN) as [HO1 HO2]. unfold syscall. destruct (e_faults E (w_ops w) k) as [|m|m] eqn:EF.
    - unfold sys_stat. rewrite (resolve_named (w_fs w) fl s cs HN HA (fun _ => HL)), HO1, HO2. eexists. split; [|left; reflexivity]. reflexivity.
    - destruct (HC (w_ops w) k m); [destruct Hk; auto|exact EF].
    - eexists. split; [|right; reflexivity]. reflexivity.
  Qed.
  Lemma path_arg_prefix p r : path_arg (p ++ slash :: r) = true -> p <> [] -> path_arg p = true.
  Proof.
    unfold path_arg. rewrite zlen_app, zlen_cons, existsb_app. cbn [existsb]. pose proof (zlen_nonneg r). destruct p; [congruence|]. cbn [app is_nil negb]. destruct (existsb _ (b :: p)); cbn [orb negb]; lia.
  Qed.
  Lemma parent_named s cs n : named s (cs ++ [n]) -> parent_of s = None \/ exists p r, parent_of s = Some p /\ s = p ++ slash :: r /\ p <> [] /\ comps p = comps dest ++ cs /\ is_abs p = is_abs dest.
  Proof using Hnd.
    intros HN. pose proof HN as [HF HS]. destruct HS as [[HS _]|HS]; [apply app_eq_nil in HS as [_ HS]; discriminate|]. destruct (parent_of s) as [p|] eqn:EP; [|left; reflexivity]. right.
    destruct (parent_leading _ _ EP) as (Hp & _ & _). rewrite inside_render in HS by exact HF. set (st := cstack dest ++ cs ++ [n]) in HS.
    assert (Hn : plain n) by (apply Forall_app in HF as [_ HF]; inversion HF; assumption). destruct Hn as (N1 & _ & _ & N4).
    assert (HJ : exists x, s = x ++ slash :: n \/ s = n).
    { unfold render in HS. unfold st in HS. rewrite app_assoc in HS. destruct (cstack dest ++ cs) as [|c0 l0] eqn:EQ.
      - cbn [app join_comps] in HS. destruct (is_abs dest); [exists []; left; exact HS|]. exists []. right. destruct n; [congruence|exact HS].
      - rewrite join_app in HS by discriminate. cbn [join_comps] in HS. change (match l0 with [] => c0 | _ :: _ => c0 ++ slash :: join_comps l0 end) with (join_comps (c0 :: l0)) in HS.
        destruct (is_abs dest); [exists (slash :: join_comps (c0 :: l0)); left; exact HS|]. exists (join_comps (c0 :: l0)). left. rewrite HS. destruct (join_comps (c0 :: l0)); reflexivity. }
    destruct HJ as (x & [HJ|HJ]); rewrite HJ in EP; [|rewrite parent_alone in EP by exact N4; discriminate]. rewrite parent_child in EP by assumption. destruct x as [|x0 x]; [discriminate|]. injection EP as <-.
    exists (x0 :: x), n. split; [reflexivity|]. split; [exact HJ|]. split; [discriminate|]. destruct (named_comps s _ HN) as [HC HAb]. rewrite HJ in HC, HAb. rewrite comps_app in HC. rewrite is_abs_app in HAb by discriminate.
    split; [|exact HAb]. assert (Hon : okc n). { rewrite Forall_forall in HF. apply plain_okc. apply HF. apply in_or_app. right. left. reflexivity. }
    rewrite (comps_one n Hon), app_assoc in HC. apply app_inj_tail in HC as [HC _]. exact HC.
  Qed.
  Lemma mkall_calm s cs w : calm -> named s cs -> okp cs -> anc (w_fs w) (D0 ++ cs) -> (look (w_fs w) (D0 ++ cs) = None \/ look (w_fs w) (D0 ++ cs) = Some NDir) ->
    look (w_fs w) D0 = Some NDir ->
    exists w' r, MkdirAll E s w = (w', r) /\ (r = Ret true \/ r = OCrash).
  Proof using Hnd.
    intros HC HN HO HA HT HD. assert (HL : forall t, look (w_fs w) (D0 ++ cs) <> Some (NLink t)) by (intros t; destruct HT as [->| ->]; discriminate).
    unfold MkdirAll. cbn [MkdirAll_loop]. set (f := length s). destruct (stat_calm s true OStat cs w (or_introl eq_refl) HC HN HO HA HL) as (w1 & HF1 & [HS|HS]); unfold bind at 1, Stat at 1; rewrite HS; [|exists w1, OCrash; auto].
    destruct HT as [HT|HT]; rewrite HT; cbn [option_map kind_of]; [|exists w1, (Ret true); auto].
    destruct cs as [|n cs _] using rev_ind; [rewrite app_nil_r in HT; congruence|].
    assert (HPar : exists w2 r, match parent_of s with Some p => MkdirAll_loop f E p | None => ret true end w1 = (w2, r) /\ w_fs w2 = w_fs w /\ (r = Ret true \/ r = OCrash)).
    { destruct (parent_named s cs n HN) as [->|(p & r & HP & Hs & Hp & HCp & HAp)]; [exists w1, (Ret true); split; [reflexivity|]; split; [exact HF1|left; reflexivity]|]. rewrite HP.
      assert (Hf : (0 < f)%nat) by (unfold f; rewrite Hs, app_length; cbn [length]; lia). clearbody f. destruct f as [|f]; [lia|]. cbn [MkdirAll_loop]. unfold bind at 1, Stat at 1, syscall at 1.
      destruct (HO s HN) as [HO1 HO2]. rewrite Hs in HO1. apply path_arg_prefix in HO1; [|exact Hp]. destruct (e_faults E (w_ops w1) OStat) as [|m|m] eqn:EF; [|destruct (HC (w_ops w1) OStat m); [auto|exact EF]|eexists; eexists; split; [reflexivity|]; split; [exact HF1|right; reflexivity]].
      assert (Hup : D0 ++ cs = base ++ comps p) by (rewrite HCp; unfold D0; rewrite <- app_assoc; reflexivity).
      assert (HLp : look (w_fs w) (D0 ++ cs) = Some NDir) by (apply (HA (D0 ++ cs) [n]); [rewrite <- app_assoc; reflexivity|discriminate]).
      unfold sys_stat. rewrite HF1. unfold resolve. rewrite HO1, HAp. fold base. rewrite walk_anc.
      - replace (existsb long_name (comps p)) with false by (symmetry; rewrite Hs, comps_app, existsb_app in HO2; apply orb_false_iff in HO2; exact (proj1 HO2)).
        rewrite <- Hup, HLp. cbn [option_map kind_of]. eexists. eexists. split; [reflexivity|]. split; [reflexivity|left; reflexivity].
      - intros Hdd. apply (named_nodd s _ HN). rewrite Hs, comps_app. apply in_or_app. left. exact Hdd.
      - intros a b Hab Hb _. apply (HA (base ++ a) (b ++ [n])); [|intros X; apply app_eq_nil in X as [X _]; contradiction]. rewrite <- app_assoc, (app_assoc a), <- Hab, (app_assoc base), <- Hup, <- app_assoc. reflexivity.
      - intros _ t _. rewrite <- Hup, HLp. discriminate. }
    destruct HPar as (w2 & r2 & HM & HF2 & [-> | ->]); unfold bind at 1; rewrite HM; [|exists w2, OCrash; auto].
    unfold bind at 1, Mkdir at 1, syscall at 1. destruct (e_faults E (w_ops w2) OMkdir) as [|m|m] eqn:EF; [|destruct (HC (w_ops w2) OMkdir m); [auto|exact EF]|eexists; eexists; split; [reflexivity|right; reflexivity]].
    unfold sys_mkdir. rewrite HF2. destruct (HO s HN) as [HO1 HO2]. rewrite (resolve_named (w_fs w) false s _ HN HA ltac:(discriminate)), HO1, HO2. cbn [andb negb]. rewrite HT. eexists. eexists. split; [reflexivity|left; reflexivity].
  Qed.
End Dest.

(** C46: recover stays inside the destination although the metadata contains symbolic
    links, on any directory graph, as long as no two items of a directory share a name. *)
From Verif Require Import Go GoProofs Layout KeyFmt KeyProofs Bolt Store ToString PropsText Fs Recover RecoverProofs SpecFs SpecContent PathProofs PropsRecoverPaths FsProofs PropsRecoverSafe PropsRecoverDfs PropsRecoverFile PropsRecoverLink SpecTree TreeProofs TreeRun TreeFull PropsTree.
From Verif Require Import LayoutProofs SpecLayout MkIndex PropsPath PropsRecoverEx PropsTreeEx.
From Coq Require Import ZifyBool ZifyNat ZifyN.
Ltac Zify.zify_post_hook ::= Z.div_mod_to_equations.

(** the names of a list of dir items *)
Definition item_names (l : list (list byte * slice)) : list (list byte) :=
  flat_map (fun e => match DirItem_Name (snd e) with Ok n => [n] | _ => [] end) l.

(** ** a file that cannot be opened *)
Lemma file_unopened cfuel E dev q clobber owner inode path w w' o : recoverFile cfuel E dev q clobber owner inode path w = (w', o) -> sys_open (e_cwd E) path (w_fs w) = (w_fs w, None) -> w_fs w' = w_fs w.
Proof.
  intros H HR. set (R := fun a b : world => w_fs a = w_fs w -> w_fs b = w_fs w). assert (Rr : forall a, R a a) by (intros a Ha; exact Ha). assert (Rt : forall a b c, R a b -> R b c -> R a c) by (intros a b c H1 H2 Ha; exact (H2 (H1 Ha))).
  refine ((_ : R w w') eq_refl). revert w w' o H HR R Rr Rt. intros w w' o H HR R Rr Rt. unfold recoverFile in H.
  refine (keeps_bind R Rt _ _ _ _ w w' o H).
  - intros a b oo HX Ha. unfold Stat in HX. apply syscall_cases in HX as [(F & r & _ & EF & -> & _)|(n & -> & _)]; [unfold sys_stat in EF; injection EF as <- _|]; exact Ha.
  - intros k. destruct (is_some k && negb clobber); [apply keeps_ret; exact Rr|]. apply keeps_lift_bind; [exact Rr|]. intros it _. apply keeps_lift_bind; [exact Rr|]. intros ii _.
    intros a b oo HX Ha. unfold bind at 1 in HX. destruct (OpenFile E path a) as [a1 oa] eqn:EO. unfold OpenFile in EO. apply syscall_cases in EO as [(F & r & _ & EF & Ea & ->)|(n & Ea & [[-> _]| ->])].
    + rewrite Ha, HR in EF. injection EF as <- <-. unfold ret in HX. injection HX as <- _. rewrite Ea. reflexivity.
    + unfold ret in HX. injection HX as <- _. rewrite Ea. exact Ha.
    + injection HX as <- _. rewrite Ea. exact Ha.
Qed.
(** nothing at or below [P] is a symbolic link *)
Definition linkless (F : fs) (P : cpath) : Prop := forall r t, look F (P ++ r) <> Some (NLink t).
Lemma linkless_same P w w' : (forall r, look (w_fs w') (P ++ r) = look (w_fs w) (P ++ r)) -> linkless (w_fs w) P -> linkless (w_fs w') P.
Proof. intros HE H r t. rewrite HE. apply H. Qed.
Lemma linkless_child F P n : linkless F P -> linkless F (P ++ [n]).
Proof. intros H r t. rewrite <- app_assoc. apply H. Qed.
Lemma only_keeps_linkless P n m w w' : n <> m -> only (P ++ [n]) w w' -> linkless (w_fs w) (P ++ [m]) -> linkless (w_fs w') (P ++ [m]).
Proof. intros Hn HO. apply linkless_same. intros r. apply HO. apply (sibling_apart P m n); [congruence|apply below_app]. Qed.

Lemma oid_u64 k : is_u64 (ObjectID (ik_Key k)).
Proof.
  cbn [ik_Key ObjectID]. unfold ik_ObjectID, is_u64. set (l := sub_bytes keyV2ObjectID 8 k). pose proof (be_decode_range l) as H. assert (HL : zlen l <= 8) by (unfold l, sub_bytes, zlen; rewrite firstn_length; lia).
  assert (256 ^ zlen l <= 256 ^ 8) by (apply Z.pow_le_mono_r; lia). change (256 ^ 8) with (2^64) in *. lia.
Qed.
Section Apart.
  Variables (E : env) (dest : list byte) (q : queries).
  Hypothesis Hnd : ~ In [dot; dot] (comps dest).
  Hypothesis Hne : dest <> [].
  Hypothesis HQ : forall o d, NoDup (item_names (st_items (q_dirItems q o d))) /\ ~ In [] (item_names (st_items (q_dirItems q o d))).
  Notation D0 := (D0 E dest).
  Notation named := (named dest).

  Lemma apart_file cfuel dev clobber owner i s cs w w' o : named s cs -> anc (w_fs w) (D0 ++ cs) -> linkless (w_fs w) (D0 ++ cs) ->
    recoverFile cfuel E dev q clobber owner i s w = (w', o) -> only (D0 ++ cs) w w'.
  Proof using Hnd.
    intros HN HA HF H. assert (HL : forall t, look (w_fs w) (D0 ++ cs) <> Some (NLink t)) by (intros t; rewrite <- (app_nil_r (D0 ++ cs)); apply HF).
    pose proof (resolve_named E dest Hnd (w_fs w) true s cs HN HA (fun _ => HL)) as HR. destruct (path_arg s && _).
    - destruct (look (w_fs w) (D0 ++ cs)) as [[c| |t]|] eqn:EL.
      + apply same_but_only. refine (proj1 (file_leaves _ _ _ _ _ _ _ _ _ _ _ _ H HR _)). right. eexists. exact EL.
      + apply only_fs. apply (file_unopened _ _ _ _ _ _ _ _ _ _ _ H). unfold sys_open. rewrite HR, EL. reflexivity.
      + destruct (HL t eq_refl).
      + apply same_but_only. refine (proj1 (file_leaves _ _ _ _ _ _ _ _ _ _ _ _ H HR _)). left. exact EL.
    - apply only_fs. exact (file_nowhere _ _ _ _ _ _ _ _ _ _ _ H HR).
  Qed.
  Lemma apart_link dev clobber owner i s cs w w' o : named s cs -> anc (w_fs w) (D0 ++ cs) ->
    recoverSymlink E dev q clobber owner i s w = (w', o) -> only (D0 ++ cs) w w'.
  Proof using Hnd.
    intros HN HA H. set (P := D0 ++ cs) in *.
    pose proof (fun F HA => resolve_named E dest Hnd F false s cs HN HA ltac:(discriminate)) as HRs. fold P in HRs. clearbody P.
    set (R := fun a b : world => anc (w_fs a) P -> same_but P a b).
    assert (Rr : forall a, R a a) by (intros a _; apply same_but_refl).
    assert (Rt : forall a b c, R a b -> R b c -> R a c).
    { intros a b c H1 H2 Ha1. pose proof (H1 Ha1) as S1. exact (same_but_trans _ _ _ _ S1 (H2 (anc_only P a b (same_but_only _ _ _ S1) Ha1))). }
    assert (Rfs : forall a b, w_fs b = w_fs a -> R a b) by (intros a b HE _; unfold same_but; rewrite HE; auto).
    assert (HR : R w w').
    { refine (keeps_symlink R Rr Rt E dev q clobber s _ _ _ _ owner i w w' o H).
      - intros n off a b oo HX. unfold devRead in HX. destruct (dev n off). injection HX as <- _. apply Rfs; reflexivity.
      - intros a b oo HX. unfold Lstat in HX. apply syscall_cases in HX as [(F & r & _ & EF & HE & _)|(n & HE & _)]; apply Rfs; rewrite HE; [unfold sys_stat in EF; injection EF as <- _|]; reflexivity.
      - intros _ a b oo HX Ha1. unfold Remove in HX. apply syscall_cases in HX as [(F & r & _ & EF & HE & _)|(n & HE & _)]; [|apply Rfs; [rewrite HE; reflexivity|exact Ha1]].
        unfold sys_remove in EF. rewrite (HRs _ Ha1) in EF. destruct (path_arg s && negb (existsb long_name (comps s))); [|apply Rfs; [rewrite HE; injection EF as <- _; reflexivity|exact Ha1]].
        destruct P as [|x P0]; [apply Rfs; [rewrite HE; injection EF as <- _; reflexivity|exact Ha1]|].
        assert (Hr : x :: P0 <> []) by discriminate.
        assert (HX : F = w_fs a \/ F = del (w_fs a) (x :: P0)).
        { destruct (look (w_fs a) (x :: P0)) as [[c| |t]|]; [|destruct (has_child (w_fs a) (x :: P0))|..]; injection EF as <- _; auto. }
        destruct HX as [HX|HX]; rewrite HX in HE; [apply Rfs; [rewrite HE; reflexivity|exact Ha1]|].
        intros p Hp. rewrite HE. cbn [w_fs]. rewrite look_del by exact Hr. destruct (cpath_dec (x :: P0) p); [congruence|reflexivity].
      - intros t0 a b oo HX Ha1. unfold Symlink in HX. apply syscall_cases in HX as [(F & r & _ & EF & HE & _)|(n & HE & _)]; [|apply Rfs; [rewrite HE; reflexivity|exact Ha1]].
        unfold sys_symlink in EF. destruct (path_arg t0); [|apply Rfs; [rewrite HE; injection EF as <- _; reflexivity|exact Ha1]].
        rewrite (HRs _ Ha1) in EF. destruct (path_arg s && negb (existsb long_name (comps s))); [|apply Rfs; [rewrite HE; injection EF as <- _; reflexivity|exact Ha1]].
        destruct (look (w_fs a) P) eqn:EL; [apply Rfs; [rewrite HE; injection EF as <- _; reflexivity|exact Ha1]|]. injection EF as <- _. pose proof (none_root _ _ EL) as Hr.
        intros p Hp. rewrite HE. apply look_put_other; assumption. }
    apply same_but_only. exact (HR HA).
  Qed.
  Lemma classify_acts o s di a : classify o s di = Ok a -> a <> ASkip -> exists n, DirItem_Name di = Ok n /\ skip_name n = false /\
    match a with ASkip => False | ADir _ _ p | AFile _ p | ALink _ p => p = Join s n end.
  Proof.
    unfold classify. destruct (DirItem_Name di) as [n| |]; cbn [rbind]; try discriminate. destruct (skip_name n) eqn:ES; [intros H; injection H as <-; congruence|]. cbv zeta. intros H Ha. exists n. split; [reflexivity|]. split; [exact ES|].
    repeat match type of H with
    | rbind ?x _ = _ => destruct x; cbn [rbind] in H; try discriminate H
    | (if ?b then _ else _) = _ => destruct b
    end; injection H as <-; try reflexivity; try congruence; destruct a2; reflexivity.
  Qed.

  Definition apart_dir_stmt (rec : Z -> Z -> list byte -> list (Z * Z) -> M (list (Z * Z) * bool)) : Prop := forall o d s cs v w w' out,
    named s cs -> anc (w_fs w) (D0 ++ cs) -> linkless (w_fs w) (D0 ++ cs) -> rec o d s v w = (w', out) ->
    only_dir (D0 ++ cs) (item_names (st_items (q_dirItems q o d))) w w' /\ (look (w_fs w) (D0 ++ cs) = Some NDir -> look (w_fs w') (D0 ++ cs) = Some NDir).
  Lemma only_dir_only P names w w' : only_dir P names w w' -> only P w w'.
  Proof. intros H p Hp. apply H; [intros ->; apply Hp; apply below_self|]. intros n _ HB. apply Hp. exact (below_trans _ _ _ (below_app _ _) HB). Qed.
  Lemma apart_items rec : apart_dir_stmt rec -> forall cfuel dev clobber o s cs l v w w' out, named s cs -> anc (w_fs w) (D0 ++ cs) -> look (w_fs w) (D0 ++ cs) = Some NDir ->
    NoDup (item_names l) -> ~ In [] (item_names l) -> (forall n, In n (item_names l) -> linkless (w_fs w) ((D0 ++ cs) ++ [n])) ->
    items_loop rec cfuel E dev q clobber o s l v w = (w', out) -> only_kids (D0 ++ cs) (item_names l) w w'.
  Proof using Hnd Hne.
    intros REC cfuel dev clobber o s cs. induction l as [|[k di] l IH]; intros v w w' out HN HA HP HD HE HL H; cbn [items_loop] in H.
    { unfold ret in H. injection H as <- _. intros p _. reflexivity. }
    unfold bind at 1, lift at 1 in H. destruct (classify o s di) as [a| |] eqn:EC; [|injection H as <- _; intros p _; reflexivity..].
    cbn [item_names flat_map snd] in HD, HE, HL |- *. fold (item_names l) in HD, HE, HL |- *.
    assert (SK : a = ASkip \/ a <> ASkip) by (destruct a; [left; reflexivity|right; discriminate..]). destruct SK as [->|Ha].
    { unfold bind at 1, ret at 1 in H. intros p Hp. eapply (IH v w w' out HN HA HP); [destruct (DirItem_Name di); [inversion HD; assumption|exact HD..]|intros X; apply HE, in_or_app; right; exact X|intros n Hn; apply HL, in_or_app; right; exact Hn|exact H|].
      intros n Hn. apply Hp, in_or_app. right. exact Hn. }
    destruct (classify_acts o s di a EC Ha) as (n & En & Hs & Hp). rewrite En in HD, HE, HL |- *. cbn [app] in HD, HE, HL |- *.
    assert (Hpl : plain n) by (destruct (skip_plain n Hs) as [->|Hn]; [destruct HE; left; reflexivity|exact Hn]). inversion HD as [|? ? HD1 HD2]; subst.
    pose proof (named_join dest Hnd Hne s cs n HN Hpl) as HNn. pose proof (anc_child _ _ n HA HP) as HAn. pose proof (HL n (or_introl eq_refl)) as HLn. rewrite <- app_assoc in HAn, HLn.
    match type of H with bind ?m ?f w = _ => destruct (m w) as [w1 o1] eqn:EA end.
    assert (HO : only ((D0 ++ cs) ++ [n]) w w1).
    { rewrite <- app_assoc. destruct a as [|o' d' p|i p|i p]; [congruence|subst p..].
      - assert (EA' : (a <~ rec o' d' (Join s n) v ;; _ <~ (if snd a : bool then ret tt else emit (EvWarn WDir (Join s n))) ;; ret (fst a)) w = (w1, o1)).
        { rewrite <- EA. unfold bind. destruct (rec o' d' (Join s n) v w) as [w0 [[v0 b0]| | |]]; reflexivity. }
        apply (act_cases _ WDir (Join s n) snd fst) in EA' as (w0 & o0 & ER & HF0 & _). destruct (REC _ _ _ _ _ _ _ _ HNn HAn HLn ER) as [HO _]. apply only_dir_only in HO. intros p Hp. rewrite HF0. apply HO. exact Hp.
      - apply (act_cases _ WFile (Join s n) (fun ok => ok) (fun _ => v)) in EA as (w0 & o0 & ER & HF0 & _). pose proof (apart_file _ _ _ _ _ _ _ _ _ _ HNn HAn HLn ER) as HO. intros p Hp. rewrite HF0. apply HO. exact Hp.
      - apply (act_cases _ WLink (Join s n) (fun ok => ok) (fun _ => v)) in EA as (w0 & o0 & ER & HF0 & _). pose proof (apart_link _ _ _ _ _ _ _ _ _ HNn HAn ER) as HO. intros p Hp. rewrite HF0. apply HO. exact Hp. }
    destruct (only_kid_anc _ _ _ _ HO HA HP) as [HA1 HP1]. unfold bind in H. unfold bind in EA. rewrite EA in H.
    destruct o1 as [v1| | |]; [|injection H as <- _; intros p Hp0; apply HO, Hp0; left; reflexivity..].
    assert (HL1 : forall m, In m (item_names l) -> linkless (w_fs w1) ((D0 ++ cs) ++ [m])).
    { intros m Hm. apply (only_keeps_linkless _ n m w); [intros ->; contradiction|exact HO|apply HL; right; exact Hm]. }
    intros p Hp0. rewrite (IH v1 w1 w' out HN HA1 HP1 HD2 (fun X => HE (or_intror X)) HL1 H) by (intros m Hm; apply Hp0; right; exact Hm). apply HO, Hp0. left. reflexivity.
  Qed.
  Lemma apart_dir cfuel dev clobber : forall fuel, apart_dir_stmt (recoverDir fuel cfuel E dev q clobber).
  Proof using Hnd Hne HQ.
    induction fuel as [|fuel IH]; intros o d s cs v w w' out HN HA HL H; cbn [recoverDir] in H; [injection H as <- _; split; [intros p _ _; reflexivity|auto]|].
    destruct (key_in (o, d) v); [unfold ret in H; injection H as <- _; split; [intros p _ _; reflexivity|auto]|]. cbv zeta in H.
    unfold bind at 1 in H. destruct (MkdirAll E s w) as [w1 o1] eqn:EM. pose proof (Rm_mkall E dest _ s (named_upto E dest Hnd s cs HN) _ _ _ EM HA) as HRm.
    assert (Hother : forall p, p <> D0 ++ cs -> look (w_fs w1) p = look (w_fs w) p). { intros p Hp. destruct HRm as [->|[H1 ->]]; [reflexivity|]. apply look_put_other; [exact Hp|exact (none_root _ _ H1)]. }
    assert (Hkeep : look (w_fs w) (D0 ++ cs) = Some NDir -> look (w_fs w1) (D0 ++ cs) = Some NDir) by (intros Hd; destruct HRm as [->|[H1 _]]; [exact Hd|congruence]).
    assert (Hstop : only_dir (D0 ++ cs) (item_names (st_items (q_dirItems q o d))) w w1) by (intros p Hp _; apply Hother; exact Hp).
    destruct o1 as [ok| | |]; [|injection H as <- _; split; assumption..]. destruct ok; cbn [negb] in H; [|unfold ret in H; injection H as <- _; split; assumption].
    assert (HL0 : forall t, look (w_fs w) (D0 ++ cs) <> Some (NLink t)) by (intros t; rewrite <- (app_nil_r (D0 ++ cs)); apply HL).
    pose proof (mkall_true E dest Hnd s cs w w1 HN HA HL0 EM) as HD1.
    unfold bind at 1, emit at 1 in H. unfold bind at 1, lift at 1 in H. set (w2 := mkWorld (w_fs w1) (w_ops w1) (EvList o d :: w_log w1)) in *.
    destruct (st_end (q_dirItems q o d)) as [u| |]; [|injection H as <- _; split; assumption..].
    unfold bind at 1 in H. match type of H with context [items_loop ?a ?b ?c ?dd ?e ?f ?g ?h ?i ?j ?k] => destruct (items_loop a b c dd e f g h i j k) as [w3 o3] eqn:EI end.
    assert (w' = w3) as -> by (destruct o3; unfold ret in H; injection H as <- _; reflexivity).
    assert (HA2 : anc (w_fs w2) (D0 ++ cs)). { intros a b Hab Hb. change (w_fs w2) with (w_fs w1). rewrite Hother; [exact (HA a b Hab Hb)|]. intros ->. apply (strict_above _ _ _ Hab Hb). apply below_self. }
    destruct (HQ o d) as [Q1 Q2].
    assert (HL2 : forall n, In n (item_names (st_items (q_dirItems q o d))) -> linkless (w_fs w2) ((D0 ++ cs) ++ [n])).
    { intros n _ r t. change (w_fs w2) with (w_fs w1). rewrite <- app_assoc, Hother by (apply ext_ne; discriminate). apply HL. }
    pose proof (apart_items _ IH cfuel dev clobber o s cs _ _ _ _ _ HN HA2 HD1 Q1 Q2 HL2 EI) as HO.
    split; [intros p Hp1 Hp2; rewrite HO by exact Hp2; apply Hother; exact Hp1|]. intros _. rewrite HO; [exact HD1|]. intros n _. apply kid_not_parent.
  Qed.
  Lemma apart_subs fuel cfuel dev clobber fin : forall l v w w' out, anc (w_fs w) D0 -> look (w_fs w) D0 = Some NDir ->
    (forall e, In e l -> In (ObjectID (ik_Key (fst e)), FirstFreeObjectID) v \/ linkless (w_fs w) (D0 ++ [subvol_prefix ++ dec (ObjectID (ik_Key (fst e)))])) ->
    subvols_loop fuel cfuel E dev q clobber dest l fin v w = (w', out) -> only D0 w w'.
  Proof using Hnd Hne HQ.
    induction l as [|[k d] l IH]; intros v w w' out HA HD HL H; cbn [subvols_loop] in H.
    - unfold bind, lift, ret in H. destruct fin; injection H as <- _; apply only_refl.
    - cbv zeta in H. destruct (key_in (ObjectID (ik_Key k), FirstFreeObjectID) v) eqn:EK; [unfold bind at 1, ret at 1 in H; exact (IH _ _ _ _ HA HD (fun e He => HL e (or_intror He)) H)|].
      set (o := ObjectID (ik_Key k)) in *. set (n := subvol_prefix ++ dec o) in *.
      match type of H with bind ?m ?f w = _ => destruct (m w) as [w1 o1] eqn:EA end.
      assert (EA' : (a <~ recoverDir fuel cfuel E dev q clobber o FirstFreeObjectID (subvol_dest dest o) v ;; _ <~ (if snd a : bool then ret tt else emit (EvWarn WDir (subvol_dest dest o))) ;; ret (fst a)) w = (w1, o1)).
      { rewrite <- EA. unfold bind. destruct (recoverDir fuel cfuel E dev q clobber o FirstFreeObjectID (subvol_dest dest o) v w) as [w0 [[v0 b0]| | |]]; reflexivity. }
      apply (act_cases _ WDir (subvol_dest dest o) snd fst) in EA' as (w0 & o0 & ER & HF0 & HO0). pose proof (dir_called _ _ _ _ _ _ _ _ _ _ _ _ _ ER) as (evs & _ & HCl). unfold subvol_dest in ER. fold n in ER.
      assert (Hpl : plain n) by apply (subvol_fits k). pose proof (named_join dest Hnd Hne dest [] n (named_dest dest) Hpl) as HNn. cbn [app] in HNn.
      destruct (HL _ (or_introl eq_refl)) as [HX|HLn]; [apply key_in_spec in HX; cbn [fst] in HX; fold o in HX; congruence|]. cbn [fst] in HLn. fold o n in HLn.
      destruct (apart_dir cfuel dev clobber fuel _ _ _ _ _ _ _ _ HNn (anc_child _ _ n HA HD) HLn ER) as [HO _]. apply only_dir_only in HO.
      assert (HO1 : only (D0 ++ [n]) w w1) by (intros p Hp; rewrite HF0; apply HO; exact Hp). destruct (only_kid_anc _ _ _ _ HO1 HA HD) as [HA1 HD1].
      assert (HO1' : only D0 w w1) by (apply (only_up D0 (D0 ++ [n])); [apply below_app|exact HO1]). unfold bind in H. unfold bind in EA. rewrite EA in H.
      destruct o1 as [v1| | |]; [|injection H as <- _; exact HO1'..]. destruct o0 as [[v0 ok]| | |]; [|destruct (HO0 _ eq_refl)..]. injection HO0 as ->. cbn [fst] in H, EA.
      destruct HCl as (_ & _ & HI1 & HI2 & _). apply (only_trans _ _ w1); [exact HO1'|]. apply (IH v0 w1 w' out HA1 HD1); [|exact H].
      intros e He. destruct (Z.eq_dec (ObjectID (ik_Key (fst e))) o) as [->|No]; [left; exact HI1|]. destruct (HL e (or_intror He)) as [HX|HX]; [left; apply HI2; exact HX|right].
      apply (only_keeps_linkless _ n _ w); [|exact HO1|exact HX]. unfold n. intros HEq. apply app_inv_head in HEq. apply No.
      assert (Hu : forall x, is_u64 (ObjectID (ik_Key x))) by (intros x; apply oid_u64).
      destruct (dec_spec _ (Hu k)) as (_ & _ & V1). destruct (dec_spec _ (Hu (fst e))) as (_ & _ & V2). fold o in V1. congruence.
  Qed.
End Apart.

(** C46 with symbolic links.  On any metadata and directory graph (cycles, files shared by
    several directories, subvolumes, items whose content is missing) in which no
    directory has two items of the same name or an item without a name, and no item of
    the top directory is called like the directory subvol_N of a subvolume, and for a
    destination that is an existing directory without symbolic links in it: no file
    outside is created, changed or removed.  With and without --clobber; for any device,
    any faults of the operating system, any crash point.  (C46_refuted,
    C46_directory_refuted and C46_subvolume_refuted show what happens otherwise.) *)
Theorem C46_distinct_names_partial fuel cfuel E dev q clobber dest w w' out D :
  plain_dest E (w_fs w) dest D -> (forall r t, look (w_fs w) (D ++ r) <> Some (NLink t)) ->
  (forall o d, NoDup (item_names (st_items (q_dirItems q o d))) /\ ~ In [] (item_names (st_items (q_dirItems q o d)))) ->
  (forall e, In e (st_items (q_subvolumes q)) -> ~ In (subvol_prefix ++ dec (ObjectID (ik_Key (fst e)))) (item_names (st_items (q_dirItems q FSTreeObjectID FirstFreeObjectID)))) ->
  doRecoverFiles fuel cfuel E dev q clobber dest w = (w', out) ->
  forall p, ~ at_or_below D p -> look (w_fs w') p = look (w_fs w) p.
Proof.
  intros HPD HL HQ HS H. destruct (dest_facts _ _ _ _ HPD) as (Hnd & Hne & Hsh & -> & HA & HD & Hpa). fold (only (D0 E dest) w w').
  unfold doRecoverFiles in H. unfold bind at 1 in H. destruct (MkdirAll E dest w) as [w1 o1] eqn:EM. pose proof (mkall_there E dest Hnd _ _ _ HA HD EM) as HE1.
  destruct o1 as [ok| | |]; [|injection H as <- _; apply only_fs; exact HE1..]. destruct ok; cbn [negb] in H; [|unfold bind, emit, ret in H; injection H as <- _; apply only_fs; exact HE1].
  assert (HO1 : only (D0 E dest) w w1) by (apply only_fs; exact HE1). rewrite <- HE1 in HA, HD. assert (HL1 : linkless (w_fs w1) (D0 E dest)) by (rewrite HE1; exact HL). apply (only_trans _ _ w1); [exact HO1|]. clear HO1 HE1 EM HL HPD w.
  unfold bind at 1 in H. destruct (recoverDir fuel cfuel E dev q clobber FSTreeObjectID FirstFreeObjectID dest [] w1) as [w2 o2] eqn:ER.
  destruct (apart_dir E dest q Hnd Hne HQ cfuel dev clobber fuel _ _ _ [] _ _ _ _ (named_dest dest) ltac:(rewrite app_nil_r; exact HA) ltac:(rewrite app_nil_r; exact HL1) ER) as [HO HK]. rewrite app_nil_r in HO, HK. specialize (HK HD).
  pose proof (only_dir_only _ _ _ _ HO) as HO2. destruct o2 as [[v ok]| | |]; [|injection H as <- _; exact HO2..]. unfold bind at 1 in H.
  destruct ((if ok then ret tt else emit (EvWarn WDir dest)) w2) as [w3 o3] eqn:EW. apply warn_fs in EW as [HE3 ->]. unfold bind in H.
  destruct (subvols_loop fuel cfuel E dev q clobber dest (st_items (q_subvolumes q)) (st_end (q_subvolumes q)) v w3) as [w4 o4] eqn:ES.
  assert (w' = w4) as -> by (destruct o4; unfold ret in H; injection H as <- _; reflexivity).
  assert (HO3 : only (D0 E dest) w1 w3) by (intros p Hp; rewrite HE3; apply HO2; exact Hp). apply (only_trans _ _ w3); [exact HO3|].
  refine (apart_subs E dest q Hnd Hne HQ _ _ _ _ _ _ _ _ _ _ (anc_only _ _ _ HO3 HA) _ _ ES); [rewrite HE3; exact HK|].
  intros e He. right. intros r t. rewrite HE3, <- app_assoc, HO; [apply HL1|apply ext_ne; discriminate|]. intros m Hm. apply (sibling_apart _ (subvol_prefix ++ dec (ObjectID (ik_Key (fst e)))) m); [|exists r; rewrite <- app_assoc; reflexivity].
  intros HX. apply (HS e He). rewrite HX. exact Hm.
Qed.
Print Assumptions C46_distinct_names_partial.

(** a graph with a cycle (/a/b is / again), links to /o in two directories, and an orphaned subvolume *)
Definition q46l : queries := mkQueries
  (fun o d =>
     if (o =? 5) && (d =? 256) then mkStream (map (fun x => ([], sl (ser (dir_item_fields x)))) [mkdi 259 1 7 s_l; mkdi 257 1 2 s_a; mkdi 258 1 1 s_f]) (Ok tt)
     else if (o =? 5) && (d =? 257) then mkStream (map (fun x => ([], sl (ser (dir_item_fields x)))) [mkdi 256 1 2 s_x; mkdi 259 1 7 s_l]) (Ok tt)
     else mkStream [] (Ok tt))
  (q_inode (ixq ex_items)) (q_extents (ixq ex_items)) (q_extent0 (ixq [inl 5 259 0 (abs1 s_o)])) (q_physical (ixq ex_items)) (mkStream [(newIndexKey 1 (mkKey 300 132 0) 7, sl [])] (Ok tt)).
Definition s_300 : list byte := subvol_prefix ++ dec 300.
Example C46_distinct_ex : let r := doRecoverFiles 10 10 E0 (file_reader ex_dev) q46l true (abs1 s_d) (w0 F_d) in
  look (w_fs (fst r)) [s_d; s_a; s_l] = Some (NLink (abs1 s_o)) /\ look (w_fs (fst r)) [s_d; s_300] = Some NDir /\ forall p, ~ at_or_below [s_d] p -> look (w_fs (fst r)) p = look F_d p.
Proof.
  cbv zeta. split; [vm_compute; reflexivity|]. split; [vm_compute; reflexivity|].
  apply (C46_distinct_names_partial 10 10 E0 (file_reader ex_dev) q46l true (abs1 s_d) (w0 F_d) (fst (doRecoverFiles 10 10 E0 (file_reader ex_dev) q46l true (abs1 s_d) (w0 F_d))) (snd (doRecoverFiles 10 10 E0 (file_reader ex_dev) q46l true (abs1 s_d) (w0 F_d))) [s_d]).
  - exact vol_dest.
  - intros r t H. cbn [w_fs w0] in H. assert (H1 : In ([s_d] ++ r) (map fst F_d)) by (apply look_In; [discriminate|congruence]). destruct H1 as [H1|[H1|[]]]; [|discriminate]. destruct r; [|discriminate]. vm_compute in H. discriminate.
  - intros o d. cbn [q46l q_dirItems]. destruct ((o =? 5) && (d =? 256)); [|destruct ((o =? 5) && (d =? 257))]; (split; [vm_compute; repeat constructor; cbn [In]; intuition discriminate|vm_compute; intuition discriminate]).
  - intros e [<-|[]]. vm_compute. intuition discriminate.
  - apply surjective_pairing.
Qed.

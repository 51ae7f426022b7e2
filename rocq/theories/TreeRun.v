(** Recover on a well-formed tree: what any run (with faults, or killed) leaves. *)
From Verif Require Import Go GoProofs Layout KeyFmt Bolt Store Fs Recover RecoverProofs SpecFs SpecContent PathProofs PropsRecoverPaths FsProofs PropsRecoverSafe PropsRecoverDfs PropsRecoverFile PropsRecoverLink SpecTree TreeProofs.
From Coq Require Import ZifyBool ZifyNat ZifyN.
Ltac Zify.zify_post_hook ::= Z.div_mod_to_equations.

Scheme dir_shows_min := Minimality for dir_shape Sort Prop
  with list_shows_min := Minimality for list_shape Sort Prop.
Combined Scheme shows_mutind from dir_shows_min, list_shows_min.

Lemma name_skip n : name_ok n -> skip_name n = false.
Proof.
  intros (Hp & Hb & _). destruct (plain_okc n Hp) as [(A & B & C) D]. unfold skip_name. rewrite B, D. cbn [orb]. apply orb_false_iff. unfold has_byte.
  assert (G : forall x, ~ In x n -> existsb (beqb x) n = false). { intros x Hx. destruct (existsb (beqb x) n) eqn:EE; [|reflexivity]. apply existsb_exists in EE as (y & Hy & HB). apply beqb_eq in HB. subst. contradiction. }
  split; apply G; assumption.
Qed.
Lemma subvol_name_plain o : 0 <= o -> plain (subvol_prefix ++ dec o).
Proof. intros Ho. assert (HS : skip_name (subvol_prefix ++ dec o) = false) by (apply subvol_name_ok; exact Ho). destruct (skip_plain _ HS) as [H|H]; [discriminate|exact H]. Qed.
Lemma classify_file o s di n loc : says di n FtRegFile loc -> KType loc <> RootItemKey -> name_ok n -> classify o s di = Ok (AFile (ObjectID loc) (Join s n)).
Proof.
  intros (A & B & C) Hr Hn. unfold classify. rewrite A. cbn [rbind]. rewrite (name_skip n Hn). cbv zeta. unfold DirItem_IsDir, DirItem_IsSubvolume. rewrite B, C. cbn [rbind].
  change (FtRegFile =? FtDir) with false. cbv iota. replace (KType loc =? RootItemKey) with false by (symmetry; apply Z.eqb_neq; exact Hr). cbn [rbind]. reflexivity.
Qed.
Lemma classify_link o s di n loc : says di n FtSymlink loc -> KType loc <> RootItemKey -> name_ok n -> classify o s di = Ok (ALink (ObjectID loc) (Join s n)).
Proof.
  intros (A & B & C) Hr Hn. unfold classify. rewrite A. cbn [rbind]. rewrite (name_skip n Hn). cbv zeta. unfold DirItem_IsDir, DirItem_IsSubvolume. rewrite B, C. cbn [rbind].
  change (FtSymlink =? FtDir) with false. cbv iota. replace (KType loc =? RootItemKey) with false by (symmetry; apply Z.eqb_neq; exact Hr). cbn [rbind]. reflexivity.
Qed.
Lemma classify_other o s di n t loc : says di n t loc -> KType loc <> RootItemKey -> t <> FtRegFile -> t <> FtSymlink -> t <> FtDir -> classify o s di = Ok ASkip.
Proof.
  intros (A & B & C) Hr H1 H2 H3. unfold classify. rewrite A. cbn [rbind]. destruct (skip_name n); [reflexivity|]. cbv zeta. unfold DirItem_IsDir, DirItem_IsSubvolume. rewrite B, C. cbn [rbind].
  replace (t =? FtDir) with false by (symmetry; apply Z.eqb_neq; exact H3). cbv iota. replace (KType loc =? RootItemKey) with false by (symmetry; apply Z.eqb_neq; exact Hr). cbn [rbind].
  replace (t =? FtRegFile) with false by (symmetry; apply Z.eqb_neq; exact H1). replace (t =? FtSymlink) with false by (symmetry; apply Z.eqb_neq; exact H2). reflexivity.
Qed.
Lemma classify_dir o s di n o' d' : DirItem_Name di = Ok n -> names_dir o di (o', d') -> classify o s di = Ok (ADir o' d' (Join s n)).
Proof.
  intros A (name & t & loc & H1 & H2 & H3 & H4 & H5). rewrite A in H1. injection H1 as <-. unfold classify. rewrite A. cbn [rbind]. rewrite H2. cbv zeta.
  unfold DirItem_IsDir, DirItem_IsSubvolume. rewrite H3, H4. cbn [rbind]. destruct H5 as [[E1 E2]|(E1 & -> & E2)]; injection E2 as -> ->.
  - rewrite E1. change (RootItemKey =? RootItemKey) with true. destruct (t =? FtDir); reflexivity.
  - change (FtDir =? FtDir) with true. cbn [rbind]. replace (KType loc =? RootItemKey) with false by (symmetry; apply Z.eqb_neq; exact E1). reflexivity.
Qed.

Lemma list_nodup q A : forall o l kids ks, list_shape q A o l kids ks -> NoDup (map fst kids).
Proof. induction 1; try assumption; cbn [map fst]; constructor; assumption. Qed.
(** ** trees in file trees *)
Lemma pick_In kids n t : pick kids n = Some t -> In (n, t) kids.
Proof. induction kids as [|[m u] kids IH]; cbn [pick]; [discriminate|]. destruct (list_eq_dec _ m n) as [->|]; [intros H; injection H as ->; left; reflexivity|right; auto]. Qed.
Lemma pick_names kids n : pick kids n <> None <-> In n (map fst kids).
Proof.
  induction kids as [|[m u] kids IH]; cbn [pick map fst In]; [split; [congruence|intros []]|]. destruct (list_eq_dec _ m n) as [->|N]; [split; [auto|discriminate]|]. rewrite IH. split; [auto|intros [H|H]; [contradiction|exact H]].
Qed.
Lemma pick_app a b n : pick (a ++ b) n = match pick a n with Some t => Some t | None => pick b n end.
Proof. induction a as [|[m u] a IH]; cbn [app pick]; [reflexivity|]. destruct (list_eq_dec _ m n); [reflexivity|exact IH]. Qed.
Lemma In_pick kids n t : NoDup (map fst kids) -> In (n, t) kids -> pick kids n = Some t.
Proof.
  induction kids as [|[m u] kids IH]; intros HN H; [destruct H|]. cbn [map fst] in HN. inversion HN as [|? ? H1 H2]; subst. cbn [pick]. destruct H as [H|H].
  - injection H as -> ->. destruct (list_eq_dec _ n n); [reflexivity|congruence].
  - destruct (list_eq_dec _ m n) as [->|]; [destruct H1; apply in_map_iff; exists (n, t); auto|apply IH; assumption].
Qed.
Lemma fit_kids F P kids : part_of_tree F P (TDir kids) -> (forall n t, pick kids n = Some t -> part_of_tree F (P ++ [n]) t) /\ (forall n r, pick kids n = None -> look F (P ++ n :: r) = None).
Proof.
  intros H. split.
  - intros n t Hn r nd Hr. rewrite <- app_assoc in Hr. cbn [app] in Hr. destruct (H _ _ Hr) as (nd' & HT & HK). cbn [tree_at] in HT. rewrite Hn in HT. exists nd'. auto.
  - intros n r Hn. destruct (look F (P ++ n :: r)) as [nd|] eqn:EL; [|reflexivity]. destruct (H _ _ EL) as (nd' & HT & _). cbn [tree_at] in HT. rewrite Hn in HT. discriminate.
Qed.
Lemma kids_fit F P kids : (look F P = None \/ look F P = Some NDir) -> (forall n t, pick kids n = Some t -> part_of_tree F (P ++ [n]) t) -> (forall n r, pick kids n = None -> look F (P ++ n :: r) = None) ->
  part_of_tree F P (TDir kids).
Proof.
  intros HP HK HN r nd Hr. destruct r as [|n r].
  - rewrite app_nil_r in Hr. exists NDir. split; [reflexivity|]. destruct HP as [HP|HP]; rewrite HP in Hr; [discriminate|injection Hr as <-; reflexivity].
  - cbn [tree_at]. destruct (pick kids n) as [t|] eqn:EP; [|rewrite (HN n r EP) in Hr; discriminate]. apply (HK n t EP). rewrite <- app_assoc. exact Hr.
Qed.
Lemma fit_top F P kids : part_of_tree F P (TDir kids) -> look F P = None \/ look F P = Some NDir.
Proof.
  intros H. destruct (look F P) as [nd|] eqn:EL; [|left; reflexivity]. right. rewrite <- (app_nil_r P) in EL. destruct (H _ _ EL) as (nd' & HT & HK). injection HT as <-. destruct nd; try discriminate. reflexivity.
Qed.
Lemma fit_same F F' P t : (forall r, look F' (P ++ r) = look F (P ++ r)) -> part_of_tree F P t -> part_of_tree F' P t.
Proof. intros HE H r nd Hr. rewrite HE in Hr. exact (H r nd Hr). Qed.
Lemma tree_same F F' P t : (forall r, look F' (P ++ r) = look F (P ++ r)) -> holds_tree F P t -> holds_tree F' P t.
Proof. intros HE H r. rewrite HE. exact (H r). Qed.
Lemma leaf_fit F P t : (forall k, t <> TDir k) -> (look F P = None \/ exists nd, look F P = Some nd /\ kind_of nd = kind_of (top_node t)) -> (forall r, r <> [] -> look F (P ++ r) = None) -> part_of_tree F P t.
Proof.
  intros Ht HP HB r nd Hr. destruct r as [|c r]; [|rewrite HB in Hr by discriminate; discriminate]. rewrite app_nil_r in Hr. exists (top_node t). split; [reflexivity|].
  destruct HP as [HP|(nd0 & HP & HK)]; rewrite HP in Hr; [discriminate|]. injection Hr as <-. exact HK.
Qed.
Lemma fit_leaf F P t : (forall k, t <> TDir k) -> part_of_tree F P t -> (look F P = None \/ exists nd, look F P = Some nd /\ kind_of nd = kind_of (top_node t)) /\ (forall r, r <> [] -> look F (P ++ r) = None).
Proof.
  intros Ht H. split.
  - destruct (look F P) as [nd|] eqn:EL; [|left; reflexivity]. right. exists nd. split; [reflexivity|]. rewrite <- (app_nil_r P) in EL. destruct (H _ _ EL) as (nd' & HT & HK). injection HT as <-. exact HK.
  - intros r Hr. destruct (look F (P ++ r)) as [nd|] eqn:EL; [|reflexivity]. destruct (H _ _ EL) as (nd' & HT & _). destruct r as [|c r]; [congruence|]. destruct t; try discriminate HT. destruct (Ht kids eq_refl).
Qed.
Lemma ext_ne (P r : cpath) : r <> [] -> P ++ r <> P.
Proof. intros Hr H. rewrite <- (app_nil_r P) in H at 2. apply app_inv_head in H. contradiction. Qed.
Lemma same_but_only P w w' : same_but P w w' -> only P w w'.
Proof. intros H p Hp. apply H. intros ->. apply Hp. apply below_self. Qed.

(** ** a file that cannot be opened *)
Lemma file_nowhere cfuel E dev q clobber owner inode path w w' o : recoverFile cfuel E dev q clobber owner inode path w = (w', o) -> resolve (w_fs w) (e_cwd E) true path = None -> w_fs w' = w_fs w.
Proof.
  intros H HR. set (R := fun a b : world => w_fs a = w_fs w -> w_fs b = w_fs w). assert (Rr : forall a, R a a) by (intros a Ha; exact Ha). assert (Rt : forall a b c, R a b -> R b c -> R a c) by (intros a b c H1 H2 Ha; exact (H2 (H1 Ha))).
  refine ((_ : R w w') eq_refl). revert w w' o H HR R Rr Rt. intros w w' o H HR R Rr Rt. unfold recoverFile in H.
  refine (keeps_bind R Rt _ _ _ _ w w' o H).
  - intros a b oo HX Ha. unfold Stat in HX. apply syscall_cases in HX as [(F & r & _ & EF & -> & _)|(n & -> & _)]; [unfold sys_stat in EF; injection EF as <- _|]; exact Ha.
  - intros k. destruct (is_some k && negb clobber); [apply keeps_ret; exact Rr|]. apply keeps_lift_bind; [exact Rr|]. intros it _. apply keeps_lift_bind; [exact Rr|]. intros ii _.
    intros a b oo HX Ha. unfold bind at 1 in HX. destruct (OpenFile E path a) as [a1 oa] eqn:EO. unfold OpenFile in EO. apply syscall_cases in EO as [(F & r & _ & EF & Ea & ->)|(n & Ea & [[-> _]| ->])].
    + unfold sys_open in EF. rewrite Ha, HR in EF. injection EF as <- <-. unfold ret in HX. injection HX as <- _. rewrite Ea. reflexivity.
    + unfold ret in HX. injection HX as <- _. rewrite Ea. exact Ha.
    + injection HX as <- _. rewrite Ea. exact Ha.
Qed.

Section Any.
  Variables (E : env) (dest : list byte) (q : queries) (Sh : ask).
  Hypothesis Hnd : ~ In [dot; dot] (comps dest).
  Hypothesis Hne : dest <> [].
  Notation D0 := (D0 E dest).
  Notation named := (named dest).

  Lemma any_file cfuel dev clobber owner i s cs c w w' o : named s cs -> anc (w_fs w) (D0 ++ cs) -> part_of_tree (w_fs w) (D0 ++ cs) (TFile c) ->
    recoverFile cfuel E dev q clobber owner i s w = (w', o) -> only (D0 ++ cs) w w' /\ part_of_tree (w_fs w') (D0 ++ cs) (TFile c).
  Proof using Hnd.
    intros HN HA HF H. destruct (fit_leaf _ _ (TFile c) ltac:(discriminate) HF) as [HP HB].
    assert (HL : forall t, look (w_fs w) (D0 ++ cs) <> Some (NLink t)) by (intros t; destruct HP as [->|(nd & -> & HK)]; [discriminate|intros A; injection A as ->; discriminate HK]).
    pose proof (resolve_named E dest Hnd (w_fs w) true s cs HN HA (fun _ => HL)) as HR. destruct (path_arg s && _).
    - assert (HPN : plain_or_none w (D0 ++ cs)) by (destruct HP as [HP|(nd & HP & HK)]; [left; exact HP|right; destruct nd; try discriminate HK; eexists; exact HP]).
      destruct (file_leaves _ _ _ _ _ _ _ _ _ _ _ _ H HR HPN) as [HS HP']. split; [apply same_but_only; exact HS|]. apply leaf_fit; [discriminate| |].
      + destruct HP' as [HP'|(c' & HP')]; [left; exact HP'|right; eexists; split; [exact HP'|reflexivity]].
      + intros r Hr. rewrite HS by (apply ext_ne; exact Hr). apply HB. exact Hr.
    - pose proof (file_nowhere _ _ _ _ _ _ _ _ _ _ _ H HR) as HE. split; [apply only_fs; exact HE|]. rewrite HE. exact HF.
  Qed.
  Definition linkish (F : fs) (P : cpath) : Prop := look F P = None \/ exists t, look F P = Some (NLink t).
  Lemma any_link dev clobber owner i s cs t w w' o : named s cs -> anc (w_fs w) (D0 ++ cs) -> part_of_tree (w_fs w) (D0 ++ cs) (TLink t) ->
    recoverSymlink E dev q clobber owner i s w = (w', o) -> only (D0 ++ cs) w w' /\ part_of_tree (w_fs w') (D0 ++ cs) (TLink t).
  Proof using Hnd.
    intros HN HA HF H. destruct (fit_leaf _ _ (TLink t) ltac:(discriminate) HF) as [HP HB]. set (P := D0 ++ cs) in *.
    pose proof (fun F HA => resolve_named E dest Hnd F false s cs HN HA ltac:(discriminate)) as HRs. fold P in HRs. clearbody P.
    set (R := fun a b : world => anc (w_fs a) P /\ linkish (w_fs a) P -> same_but P a b /\ linkish (w_fs b) P).
    assert (Rr : forall a, R a a) by (intros a [_ Ha]; split; [apply same_but_refl|exact Ha]).
    assert (Rt : forall a b c, R a b -> R b c -> R a c).
    { intros a b c H1 H2 [Ha1 Ha2]. destruct (H1 (conj Ha1 Ha2)) as [S1 L1]. destruct (H2 (conj (anc_only P a b (same_but_only _ _ _ S1) Ha1) L1)) as [S2 L2]. split; [exact (same_but_trans _ _ _ _ S1 S2)|exact L2]. }
    assert (Rfs : forall a b, w_fs b = w_fs a -> R a b) by (intros a b HE [_ Ha]; unfold same_but; rewrite HE; auto).
    assert (HR : R w w').
    { refine (keeps_symlink R Rr Rt E dev q clobber s _ _ _ _ owner i w w' o H).
      - intros n off a b oo HX. unfold devRead in HX. destruct (dev n off). injection HX as <- _. apply Rfs; reflexivity.
      - intros a b oo HX. unfold Lstat in HX. apply syscall_cases in HX as [(F & r & _ & EF & HE & _)|(n & HE & _)]; apply Rfs; rewrite HE; [unfold sys_stat in EF; injection EF as <- _|]; reflexivity.
      - intros _ a b oo HX [Ha1 Ha2]. unfold Remove in HX. apply syscall_cases in HX as [(F & r & _ & EF & HE & _)|(n & HE & _)]; [|apply Rfs; [rewrite HE; reflexivity|auto]].
        unfold sys_remove in EF. rewrite (HRs _ Ha1) in EF. destruct (path_arg s && negb (existsb long_name (comps s))); [|apply Rfs; [rewrite HE; injection EF as <- _; reflexivity|auto]].
        destruct P as [|x P0]; [apply Rfs; [rewrite HE; injection EF as <- _; reflexivity|auto]|]. destruct Ha2 as [Ha2|(t0 & Ha2)]; rewrite Ha2 in EF.
        + apply Rfs; [rewrite HE; injection EF as <- _; reflexivity|]. split; [exact Ha1|left; exact Ha2].
        + injection EF as <- _. assert (Hr : x :: P0 <> []) by discriminate. split.
          * intros p Hp. rewrite HE, look_del by exact Hr. destruct (cpath_dec (x :: P0) p); [congruence|reflexivity].
          * left. rewrite HE, look_del by exact Hr. destruct (cpath_dec (x :: P0) (x :: P0)); [reflexivity|congruence].
      - intros t0 a b oo HX [Ha1 Ha2]. unfold Symlink in HX. apply syscall_cases in HX as [(F & r & _ & EF & HE & _)|(n & HE & _)]; [|apply Rfs; [rewrite HE; reflexivity|auto]].
        unfold sys_symlink in EF. destruct (path_arg t0); [|apply Rfs; [rewrite HE; injection EF as <- _; reflexivity|auto]].
        rewrite (HRs _ Ha1) in EF. destruct (path_arg s && negb (existsb long_name (comps s))); [|apply Rfs; [rewrite HE; injection EF as <- _; reflexivity|auto]].
        destruct (look (w_fs a) P) eqn:EL; [apply Rfs; [rewrite HE; injection EF as <- _; reflexivity|auto]|]. injection EF as <- _. pose proof (none_root _ _ EL) as Hr. split.
        + intros p Hp. rewrite HE. apply look_put_other; assumption.
        + right. exists t0. rewrite HE. apply look_put_same. exact Hr. }
    assert (HLk : linkish (w_fs w) P) by (destruct HP as [HP|(nd & HP & HK)]; [left; exact HP|right; destruct nd; try discriminate HK; eexists; exact HP]).
    destruct (HR (conj HA HLk)) as [HS HL']. split; [apply same_but_only; exact HS|]. apply leaf_fit; [discriminate| |].
    - destruct HL' as [HL'|(t0 & HL')]; [left; exact HL'|right; eexists; split; [exact HL'|reflexivity]].
    - intros r Hr. rewrite HS by (apply ext_ne; exact Hr). apply HB. exact Hr.
  Qed.

  (** the directories *)
  Definition joins (ks v v' : list (Z * Z)) : Prop := forall x, In x v' <-> In x ks \/ In x v.
  Definition apart (ks v : list (Z * Z)) : Prop := forall x, In x ks -> ~ In x v.
  (** nothing but the named entries of [P] changed *)
  Definition only_kids (P : cpath) (names : list (list byte)) (w w' : world) : Prop :=
    forall p, (forall n, In n names -> ~ at_or_below (P ++ [n]) p) -> look (w_fs w') p = look (w_fs w) p.
  (** nothing but [P] and the named entries changed *)
  Definition only_dir (P : cpath) (names : list (list byte)) (w w' : world) : Prop :=
    forall p, p <> P -> (forall n, In n names -> ~ at_or_below (P ++ [n]) p) -> look (w_fs w') p = look (w_fs w) p.
  Definition all_fit (F : fs) (P : cpath) (kids : entries) : Prop := forall n t, In (n, t) kids -> part_of_tree F (P ++ [n]) t.
  (** the operating system accepts all paths of these entries *)
  Definition oks (cs : cpath) (kids : entries) : Prop := forall n t r, In (n, t) kids -> tree_at t r <> None -> okp dest (cs ++ n :: r).
  Definition any_dir_stmt (o d : Z) (kids : entries) (ks : list (Z * Z)) : Prop := forall fuel cfuel dev clobber s cs v w w' out,
    named s cs -> anc (w_fs w) (D0 ++ cs) -> (look (w_fs w) (D0 ++ cs) = None \/ look (w_fs w) (D0 ++ cs) = Some NDir) -> all_fit (w_fs w) (D0 ++ cs) kids ->
    recoverDir fuel cfuel E dev q clobber o d s v w = (w', out) ->
    only_dir (D0 ++ cs) (map fst kids) w w' /\ (look (w_fs w') (D0 ++ cs) = look (w_fs w) (D0 ++ cs) \/ look (w_fs w') (D0 ++ cs) = Some NDir) /\ all_fit (w_fs w') (D0 ++ cs) kids /\
    (calm E -> look (w_fs w) D0 = Some NDir -> okp dest cs -> oks cs kids -> NoDup ks -> apart ks v -> forall v' ok, out = Ret (v', ok) -> ok = true /\ joins ks v v').
  Definition any_list_stmt (o : Z) (l : list (list byte * slice)) (kids : entries) (ks : list (Z * Z)) : Prop := forall fuel cfuel dev clobber s cs v w w' out,
    named s cs -> anc (w_fs w) (D0 ++ cs) -> look (w_fs w) (D0 ++ cs) = Some NDir -> all_fit (w_fs w) (D0 ++ cs) kids ->
    items_loop (recoverDir fuel cfuel E dev q clobber) cfuel E dev q clobber o s l v w = (w', out) ->
    only_kids (D0 ++ cs) (map fst kids) w w' /\ all_fit (w_fs w') (D0 ++ cs) kids /\
    (calm E -> oks cs kids -> NoDup ks -> apart ks v -> forall v', out = Ret v' -> joins ks v v').
  Lemma kid_not_parent (P : cpath) n : ~ at_or_below (P ++ [n]) P.
  Proof. apply (strict_above P [n]); [reflexivity|discriminate]. Qed.
  Lemma only_kid_anc P n w w' : only (P ++ [n]) w w' -> anc (w_fs w) P -> look (w_fs w) P = Some NDir -> anc (w_fs w') P /\ look (w_fs w') P = Some NDir.
  Proof.
    intros HO HA HP. split; [|rewrite HO; [exact HP|apply kid_not_parent]]. apply (anc_only P w w'); [|exact HA]. apply (only_up P (P ++ [n])); [apply below_app|exact HO].
  Qed.
  Lemma fit_others P n kids w w1 : only (P ++ [n]) w w1 -> ~ In n (map fst kids) -> all_fit (w_fs w) P kids -> all_fit (w_fs w1) P kids.
  Proof.
    intros HO Hn HK m u Hm. apply (fit_same (w_fs w)); [|exact (HK m u Hm)]. intros r. apply HO. apply (sibling_apart P m n); [|apply below_app]. intros ->. apply Hn, in_map_iff. exists (n, u). auto.
  Qed.
  (** one entry, then the rest *)
  Lemma any_step P n t kids w w1 w' : only (P ++ [n]) w w1 -> part_of_tree (w_fs w1) (P ++ [n]) t -> ~ In n (map fst kids) ->
    only_kids P (map fst kids) w1 w' -> all_fit (w_fs w') P kids ->
    only_kids P (map fst ((n, t) :: kids)) w w' /\ all_fit (w_fs w') P ((n, t) :: kids).
  Proof.
    intros HO Ht Hn HO2 HK2. split.
    - intros p Hp. cbn [map fst] in Hp. rewrite HO2 by (intros m Hm; apply Hp; right; exact Hm). apply HO. apply Hp. left. reflexivity.
    - intros m u [H|H]; [|exact (HK2 m u H)]. injection H as <- <-. apply (fit_same (w_fs w1)); [|exact Ht]. intros r. apply HO2. intros m Hm. apply (sibling_apart P n m); [|apply below_app]. intros ->. contradiction.
  Qed.
  Lemma warn_fs ok k p w w' o : (if ok : bool then ret tt else emit (EvWarn k p)) w = (w', o) -> w_fs w' = w_fs w /\ o = Ret tt.
  Proof. destruct ok; unfold ret, emit; intros H; injection H as <- <-; auto. Qed.
  (** an action followed by its warning *)
  Lemma act_cases {A X} (m : M A) (wk : wkind) p (okf : A -> bool) (vf : A -> X) w w1 o1 :
    (a <~ m ;; _ <~ (if okf a : bool then ret tt else emit (EvWarn wk p)) ;; ret (vf a)) w = (w1, o1) ->
    exists w0 o0, m w = (w0, o0) /\ w_fs w1 = w_fs w0 /\ match o0 with Ret a => o1 = Ret (vf a) | _ => forall x, o1 <> Ret x end.
  Proof.
    unfold bind at 1. destruct (m w) as [w0 o0]. intros H. exists w0, o0. split; [reflexivity|]. destruct o0 as [a| | |]; [|injection H as <- <-; split; [reflexivity|discriminate]|injection H as <- <-; split; [reflexivity|discriminate]|injection H as <- <-; split; [reflexivity|discriminate]].
    unfold bind in H. destruct ((if okf a then ret tt else emit (EvWarn wk p)) w0) as [w2 o2] eqn:EW. apply warn_fs in EW as [EW ->]. unfold ret in H. injection H as <- <-. auto.
  Qed.
  Lemma d0_dir F cs : anc F (D0 ++ cs) -> look F (D0 ++ cs) = Some NDir -> look F D0 = Some NDir.
  Proof. intros HA HP. destruct cs as [|c cs]; [rewrite app_nil_r in HP; exact HP|]. apply (HA D0 (c :: cs)); [reflexivity|discriminate]. Qed.
  Lemma dir_as_whole P kids w w' : part_of_tree (w_fs w) P (TDir kids) -> NoDup (map fst kids) -> only_dir P (map fst kids) w w' ->
    (look (w_fs w') P = look (w_fs w) P \/ look (w_fs w') P = Some NDir) -> all_fit (w_fs w') P kids -> only P w w' /\ part_of_tree (w_fs w') P (TDir kids).
  Proof.
    intros HF HN HO HP HK. split.
    - intros p Hp. apply HO; [intros ->; apply Hp; apply below_self|]. intros n _ HB. apply Hp. exact (below_trans _ _ _ (below_app _ _) HB).
    - pose proof (fit_top _ _ _ HF) as HT. destruct (fit_kids _ _ _ HF) as [_ HNo]. apply kids_fit; [destruct HP as [->|HP]; [exact HT|right; exact HP]| |].
      + intros n t Hp. apply HK. exact (pick_In _ _ _ Hp).
      + intros n r Hp. rewrite HO; [exact (HNo n r Hp)|apply ext_ne; discriminate|]. intros m Hm [r' HE]. rewrite <- (app_assoc P [m] r') in HE. cbn [app] in HE. apply siblings in HE. subst m. apply (proj2 (pick_names kids n) Hm Hp).
  Qed.
  Lemma whole_fit F P kids : NoDup (map fst kids) -> part_of_tree F P (TDir kids) -> all_fit F P kids.
  Proof. intros HN HF n t Hin. apply (proj1 (fit_kids _ _ _ HF)). apply In_pick; assumption. Qed.
  Lemma key_in_In k v : key_in k v = true <-> In k v.
  Proof.
    unfold key_in. rewrite existsb_exists. split.
    - intros ([a b] & H1 & H2). destruct k as [c d]. cbn [fst snd] in H2. assert (a = c) by lia. assert (b = d) by lia. subst. exact H1.
    - intros H. exists k. split; [exact H|]. rewrite !Z.eqb_refl. reflexivity.
  Qed.
  (** the rest of the loop after one entry; [m]: what is done for the entry *)
  Lemma any_entry (m : M (list (Z * Z))) (rest : list (Z * Z) -> M (list (Z * Z))) cs n t kids ks1 ks2 v w w1 o1 w' out :
    anc (w_fs w) (D0 ++ cs) -> look (w_fs w) (D0 ++ cs) = Some NDir -> all_fit (w_fs w) (D0 ++ cs) ((n, t) :: kids) -> ~ In n (map fst kids) ->
    m w = (w1, o1) -> only ((D0 ++ cs) ++ [n]) w w1 -> part_of_tree (w_fs w1) ((D0 ++ cs) ++ [n]) t ->
    (calm E -> (forall r, tree_at t r <> None -> okp dest (cs ++ n :: r)) -> NoDup ks1 -> apart ks1 v -> forall v1, o1 = Ret v1 -> joins ks1 v v1) ->
    (v1 <~ m ;; rest v1) w = (w', out) ->
    (forall v1 w1 w' out, anc (w_fs w1) (D0 ++ cs) -> look (w_fs w1) (D0 ++ cs) = Some NDir -> all_fit (w_fs w1) (D0 ++ cs) kids -> rest v1 w1 = (w', out) ->
      only_kids (D0 ++ cs) (map fst kids) w1 w' /\ all_fit (w_fs w') (D0 ++ cs) kids /\
      (calm E -> oks cs kids -> NoDup ks2 -> apart ks2 v1 -> forall v', out = Ret v' -> joins ks2 v1 v')) ->
    only_kids (D0 ++ cs) (map fst ((n, t) :: kids)) w w' /\ all_fit (w_fs w') (D0 ++ cs) ((n, t) :: kids) /\
      (calm E -> oks cs ((n, t) :: kids) -> NoDup (ks1 ++ ks2) -> apart (ks1 ++ ks2) v -> forall v', out = Ret v' -> joins (ks1 ++ ks2) v v').
  Proof.
    intros HA HP HK Hn Hm HO HF HV H HR. assert (HK0 : all_fit (w_fs w1) (D0 ++ cs) kids) by (apply (fit_others _ n kids w); [exact HO|exact Hn|intros x u Hx; apply HK; right; exact Hx]).
    destruct (only_kid_anc _ _ _ _ HO HA HP) as [HA1 HP1]. unfold bind in H. rewrite Hm in H.
    destruct o1 as [v1| | |]; [|destruct (any_step (D0 ++ cs) n t kids w w1 w1 HO HF Hn (fun p _ => eq_refl) HK0) as [G1 G2]; injection H as <- <-; split; [exact G1|]; split; [exact G2|]; discriminate..].
    destruct (HR v1 w1 w' out HA1 HP1 HK0 H) as (G1 & G2 & G3). destruct (any_step (D0 ++ cs) n t kids w w1 w' HO HF Hn G1 G2) as [K1 K2]. split; [exact K1|]. split; [exact K2|].
    intros HC Hok HN Hap v' Hv'. assert (N1 : NoDup ks1 /\ NoDup ks2 /\ (forall x, In x ks1 -> ~ In x ks2)).
    { clear -HN. induction ks1 as [|x ks1 IH]; cbn [app] in HN; [split; [constructor|]; split; [exact HN|intros x []]|]. inversion HN as [|? ? A B]; subst. destruct (IH B) as (I1 & I2 & I3). split; [constructor; [|exact I1]|split; [exact I2|]].
      - intros Hx. apply A, in_or_app. left. exact Hx.
      - intros y [->|Hy]; [|exact (I3 y Hy)]. intros Hy. apply A, in_or_app. right. exact Hy. }
    destruct N1 as (N1 & N2 & N3). assert (J1 : joins ks1 v v1). { apply HV; [exact HC| |exact N1| |reflexivity]; [intros r Hr; apply (Hok n t r); [left; reflexivity|exact Hr]|]. intros x Hx. apply Hap, in_or_app. left. exact Hx. }
    assert (J2 : joins ks2 v1 v'). { apply G3; [exact HC| |exact N2| |exact Hv']; [intros m0 u r Hm0; apply Hok; right; exact Hm0|]. intros x Hx Hv1. apply J1 in Hv1 as [Hv1|Hv1]; [exact (N3 x Hv1 Hx)|]. apply (Hap x); [apply in_or_app; right; exact Hx|exact Hv1]. }
    intros x. rewrite (J2 x), (J1 x), in_app_iff. tauto.
  Qed.
  Lemma any_all : (forall o d kids ks, dir_shape q Sh o d kids ks -> any_dir_stmt o d kids ks) /\ (forall o l kids ks, list_shape q Sh o l kids ks -> any_list_stmt o l kids ks).
  Proof using Hnd Hne.
    apply shows_mutind.
    - (* directory *)
      intros o d kids ks Hend HL IH. intros fuel cfuel dev clobber s cs v w w' out HN HA HTop HF H.
      assert (G0 : forall w0, only_dir (D0 ++ cs) (map fst kids) w0 w0) by (intros w0 p _ _; reflexivity).
      destruct fuel as [|fuel]; cbn [recoverDir] in H; [injection H as <- <-; split; [apply G0|]; split; [left; reflexivity|]; split; [exact HF|discriminate]|].
      destruct (key_in (o, d) v) eqn:EK; [unfold ret in H; injection H as <- <-; split; [apply G0|]; split; [left; reflexivity|]; split; [exact HF|]|].
      { intros _ _ _ _ _ Hap. destruct (Hap (o, d)); [left; reflexivity|apply key_in_In; exact EK]. }
      cbv zeta in H. unfold bind at 1 in H. destruct (MkdirAll E s w) as [w1 o1] eqn:EM. pose proof (Rm_mkall E dest _ s (named_upto E dest Hnd s cs HN) _ _ _ EM) as HRm.
      pose proof (Rm_only _ _ _ HA HRm) as HO1.
      assert (Hother : forall p, p <> D0 ++ cs -> look (w_fs w1) p = look (w_fs w) p).
      { intros p Hp. destruct (HRm HA) as [->|[H1 ->]]; [reflexivity|]. apply look_put_other; [exact Hp|exact (none_root _ _ H1)]. }
      assert (HT1 : look (w_fs w1) (D0 ++ cs) = look (w_fs w) (D0 ++ cs) \/ look (w_fs w1) (D0 ++ cs) = Some NDir).
      { destruct (HRm HA) as [->|[H1 ->]]; [left; reflexivity|]. right. apply look_put_same. exact (none_root _ _ H1). }
      assert (HF1 : all_fit (w_fs w1) (D0 ++ cs) kids).
      { intros n t Hin. apply (fit_same (w_fs w)); [|exact (HF n t Hin)]. intros r. apply Hother. rewrite <- app_assoc. apply ext_ne. discriminate. }
      assert (G1 : only_dir (D0 ++ cs) (map fst kids) w w1) by (intros p Hp _; apply Hother; exact Hp).
      assert (HMk : calm E -> look (w_fs w) D0 = Some NDir -> okp dest cs -> forall ok, o1 = Ret ok -> ok = true).
      { intros HC HD Hok ok ->. destruct (mkall_calm E dest Hnd s cs w HC HN Hok HA HTop HD) as (w2 & r & HM & Hr). rewrite EM in HM. injection HM as _ <-. destruct Hr as [Hr|Hr]; [injection Hr as ->; reflexivity|discriminate]. }
      destruct o1 as [ok| | |]; [|injection H as <- <-; split; [exact G1|]; split; [exact HT1|]; split; [exact HF1|discriminate]..].
      destruct ok; cbn [negb] in H; [|unfold ret in H; injection H as <- <-; split; [exact G1|]; split; [exact HT1|]; split; [exact HF1|]; intros HC HD Hok; discriminate (HMk HC HD Hok false eq_refl)].
      assert (HD1 : look (w_fs w1) (D0 ++ cs) = Some NDir). { apply (mkall_true E dest Hnd s cs w); [exact HN|exact HA| |exact EM]. intros t. destruct HTop as [->| ->]; discriminate. }
      unfold bind at 1, emit at 1 in H. unfold bind at 1, lift at 1 in H. rewrite Hend in H. unfold bind at 1 in H.
      match type of H with context [items_loop ?a ?b ?c ?dd ?e ?f ?g ?h ?i ?j ?k] => destruct (items_loop a b c dd e f g h i j k) as [w2 o2] eqn:EI end.
      assert (Hw2 : w' = w2 /\ match o2 with Ret v2 => out = Ret (v2, true) | _ => forall x, out <> Ret x end) by (destruct o2; unfold ret in H; injection H as <- <-; split; try reflexivity; discriminate). destruct Hw2 as [<- Hout].
      set (w1' := mkWorld (w_fs w1) (w_ops w1) (EvList o d :: w_log w1)) in *. assert (HA1 : anc (w_fs w1') (D0 ++ cs)) by exact (anc_only _ _ _ HO1 HA).
      destruct (IH _ _ _ _ _ _ _ _ _ _ HN HA1 HD1 HF1 EI) as (HO2 & HK3 & HV3).
      assert (HP2 : look (w_fs w') (D0 ++ cs) = Some NDir) by (rewrite HO2; [exact HD1|intros n _; apply kid_not_parent]).
      split; [intros p Hp1 Hp2; rewrite HO2 by exact Hp2; apply Hother; exact Hp1|]. split; [right; exact HP2|]. split; [exact HK3|].
      intros HC HD Hok Hoks HND Hap v' ok Hv'. destruct o2 as [v2| | |]; [|destruct (Hout _ Hv')..]. rewrite Hout in Hv'. injection Hv' as <- <-. split; [reflexivity|]. inversion HND as [|? ? N1 N2]; subst.
      assert (J : joins ks ((o, d) :: v) v2). { apply HV3; [exact HC|exact Hoks|exact N2| |reflexivity]. intros x Hx [<-|Hx']; [contradiction|]. apply (Hap x); [right; exact Hx|exact Hx']. }
      intros x. rewrite (J x). cbn [In]. tauto.
    - intros o. intros fuel cfuel dev clobber s cs v w w' out _ _ _ _ H. cbn [items_loop] in H. unfold ret in H. injection H as <- <-. split; [intros p _; reflexivity|]. split; [intros n t []|].
      intros _ _ _ _ v' Hv. injection Hv as <-. intros x. cbn [In]. tauto.
    - (* file *)
      intros o k di l n loc c kids ks Hs Hr Hfs Hn Hin _ IH. intros fuel cfuel dev clobber s cs v w w' out HN HA HP HK H. cbn [items_loop] in H.
      rewrite (classify_file o s di n loc Hs Hr Hn) in H. unfold bind at 1, lift at 1 in H.
      destruct ((ok <~ recoverFile cfuel E dev q clobber o (ObjectID loc) (Join s n) ;; _ <~ (if ok : bool then ret tt else emit (EvWarn WFile (Join s n))) ;; ret v) w) as [w1 o1] eqn:EA.
      pose proof EA as EA'. apply (act_cases _ WFile (Join s n) (fun ok => ok) (fun _ => v)) in EA' as (w0 & o0 & ER & HF0 & HO0).
      pose proof (HK n _ (or_introl eq_refl)) as HKn. pose proof (named_join dest Hnd Hne s cs n HN (proj1 Hn)) as HNn.
      pose proof (anc_child _ _ n HA HP) as HAn. rewrite <- app_assoc in HKn, HAn. destruct (any_file _ _ _ _ _ _ _ _ _ _ _ HNn HAn HKn ER) as [HO1 HF1]. rewrite app_assoc in HO1, HF1.
      assert (HO1' : only ((D0 ++ cs) ++ [n]) w w1) by (intros p Hp; rewrite HF0; apply HO1; exact Hp). rewrite <- HF0 in HF1.
      refine (any_entry _ _ cs n (TFile c) kids [] ks v w w1 o1 w' out HA HP HK Hin EA HO1' HF1 _ H _); [|intros v1 w2 w3 out2 HA2 HP2 HK2 HR2; exact (IH _ _ _ _ _ _ _ _ _ _ HN HA2 HP2 HK2 HR2)].
      intros _ _ _ _ v1 Hv1. destruct o0; [|destruct (HO0 _ Hv1)..]. rewrite HO0 in Hv1. injection Hv1 as <-. intros x. cbn [In]. tauto.
    - (* link *)
      intros o k di l n loc c kids ks Hs Hr Hfs Hn Hin _ IH. intros fuel cfuel dev clobber s cs v w w' out HN HA HP HK H. cbn [items_loop] in H.
      rewrite (classify_link o s di n loc Hs Hr Hn) in H. unfold bind at 1, lift at 1 in H.
      destruct ((ok <~ recoverSymlink E dev q clobber o (ObjectID loc) (Join s n) ;; _ <~ (if ok : bool then ret tt else emit (EvWarn WLink (Join s n))) ;; ret v) w) as [w1 o1] eqn:EA.
      pose proof EA as EA'. apply (act_cases _ WLink (Join s n) (fun ok => ok) (fun _ => v)) in EA' as (w0 & o0 & ER & HF0 & HO0).
      pose proof (HK n _ (or_introl eq_refl)) as HKn. pose proof (named_join dest Hnd Hne s cs n HN (proj1 Hn)) as HNn.
      pose proof (anc_child _ _ n HA HP) as HAn. rewrite <- app_assoc in HKn, HAn. destruct (any_link _ _ _ _ _ _ _ _ _ _ HNn HAn HKn ER) as [HO1 HF1]. rewrite app_assoc in HO1, HF1.
      assert (HO1' : only ((D0 ++ cs) ++ [n]) w w1) by (intros p Hp; rewrite HF0; apply HO1; exact Hp). rewrite <- HF0 in HF1.
      refine (any_entry _ _ cs n (TLink c) kids [] ks v w w1 o1 w' out HA HP HK Hin EA HO1' HF1 _ H _); [|intros v1 w2 w3 out2 HA2 HP2 HK2 HR2; exact (IH _ _ _ _ _ _ _ _ _ _ HN HA2 HP2 HK2 HR2)].
      intros _ _ _ _ v1 Hv1. destruct o0; [|destruct (HO0 _ Hv1)..]. rewrite HO0 in Hv1. injection Hv1 as <-. intros x. cbn [In]. tauto.
    - (* subdirectory *)
      intros o k di l n o' d' sub kids ks1 ks2 Hs Hr Hsub IHs Hn Hin _ IH. intros fuel cfuel dev clobber s cs v w w' out HN HA HP HK H. cbn [items_loop] in H.
      rewrite (classify_dir o s di n o' d' Hs Hr) in H. unfold bind at 1, lift at 1 in H.
      pose proof (HK n _ (or_introl eq_refl)) as HKn. pose proof (named_join dest Hnd Hne s cs n HN (proj1 Hn)) as HNn.
      pose proof (anc_child _ _ n HA HP) as HAn. rewrite <- app_assoc in HKn, HAn.
      match type of H with bind ?m ?f w = _ => destruct (m w) as [w1 o1] eqn:EA end.
      assert (EA' : (a <~ recoverDir fuel cfuel E dev q clobber o' d' (Join s n) v ;; _ <~ (if snd a : bool then ret tt else emit (EvWarn WDir (Join s n))) ;; ret (fst a)) w = (w1, o1)).
      { rewrite <- EA. unfold bind. destruct (recoverDir fuel cfuel E dev q clobber o' d' (Join s n) v w) as [w0 [[v0 b0]| | |]]; reflexivity. }
      apply (act_cases _ WDir (Join s n) snd fst) in EA' as (w0 & o0 & ER & HF0 & HO0).
      assert (HNs : NoDup (map fst sub)) by (inversion Hsub; eapply list_nodup; eassumption).
      destruct (IHs _ _ _ _ _ _ _ _ _ _ HNn HAn (fit_top _ _ _ HKn) (whole_fit _ _ _ HNs HKn) ER) as (K1 & K2 & K3 & K4).
      destruct (dir_as_whole _ _ _ _ HKn HNs K1 K2 K3) as [HO1 HF1]. rewrite app_assoc in HO1, HF1.
      assert (HO1' : only ((D0 ++ cs) ++ [n]) w w1) by (intros p Hp; rewrite HF0; apply HO1; exact Hp). rewrite <- HF0 in HF1.
      refine (any_entry _ _ cs n (TDir sub) kids ks1 ks2 v w w1 o1 w' out HA HP HK Hin EA HO1' HF1 _ H _); [|intros v1 w2 w3 out2 HA2 HP2 HK2 HR2; exact (IH _ _ _ _ _ _ _ _ _ _ HN HA2 HP2 HK2 HR2)].
      intros HC Hok HND Hap v1 Hv1. destruct o0 as [[v0 ok]| | |]; [|destruct (HO0 _ Hv1)..]. rewrite HO0 in Hv1. injection Hv1 as <-.
      assert (Hok0 : okp dest (cs ++ [n])) by (apply (Hok []); discriminate). cbn [fst]. refine (proj2 (K4 HC (d0_dir _ _ HA HP) Hok0 _ HND Hap v0 ok eq_refl)).
      intros m u r Hm Hr0. replace ((cs ++ [n]) ++ m :: r) with (cs ++ n :: m :: r) by (rewrite <- app_assoc; reflexivity). apply Hok. cbn [tree_at]. rewrite (In_pick _ _ _ HNs Hm). exact Hr0.
    - (* other *)
      intros o k di l n t loc kids ks Hs Hr H1 H2 H3 _ IH. intros fuel cfuel dev clobber s cs v w w' out HN HA HP HK H. cbn [items_loop] in H.
      rewrite (classify_other o s di n t loc Hs Hr H1 H2 H3) in H. unfold bind at 1, lift at 1 in H. unfold bind at 1, ret at 1 in H. exact (IH _ _ _ _ _ _ _ _ _ _ HN HA HP HK H).
  Qed.
End Any.

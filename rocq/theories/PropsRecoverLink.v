(** C51: running recover again after a crash.  C52: symbolic links. *)
From Verif Require Import Go GoProofs Layout KeyFmt Bolt Store Fs Recover RecoverProofs SpecFs SpecContent PathProofs PropsRecoverPaths FsProofs PropsRecoverSafe PropsRecoverDfs PropsRecoverFile.
From Coq Require Import ZifyBool ZifyNat ZifyN.
Ltac Zify.zify_post_hook ::= Z.div_mod_to_equations.

Lemma symlink_effect E t s w w' : Symlink E t s w = (w', Ret (Some tt)) ->
  exists p, resolve (w_fs w) (e_cwd E) false s = Some p /\ look (w_fs w) p = None /\ look (w_fs w') p = Some (NLink t) /\ same_but p w w'.
Proof.
  intros H. unfold Symlink, syscall in H. destruct (e_faults E (w_ops w) OSymlink); [|discriminate|discriminate]. unfold sys_symlink in H. destruct (path_arg t); [|discriminate].
  destruct (resolve (w_fs w) (e_cwd E) false s) as [p|]; [|discriminate]. destruct (look (w_fs w) p) eqn:EL; [discriminate|]. injection H as <-. exists p. cbn [w_fs].
  assert (Hr : p <> []) by (apply (look_missing (w_fs w)); rewrite EL; discriminate). split; [reflexivity|]. split; [exact EL|]. split; [apply look_put_same; exact Hr|]. intros p' Hp. apply look_put_other; assumption.
Qed.
(** os.Remove only unlinks the entry the path itself denotes *)
Lemma remove_effect E s w w' r : Remove E s w = (w', Ret r) -> w_fs w' = w_fs w \/ exists p, resolve (w_fs w) (e_cwd E) false s = Some p /\ p <> [] /\ w_fs w' = del (w_fs w) p.
Proof.
  intros H. unfold Remove, syscall in H. destruct (e_faults E (w_ops w) ORemove); [|injection H as <- _; left; reflexivity|discriminate]. unfold sys_remove in H.
  destruct (resolve (w_fs w) (e_cwd E) false s) as [p|]; [|injection H as <- _; left; reflexivity]. destruct p as [|c p]; [injection H as <- _; left; reflexivity|].
  destruct (look (w_fs w) (c :: p)) as [[x| |x]|] eqn:EL.
  - injection H as <- _. right. exists (c :: p). split; [reflexivity|]. split; [discriminate|reflexivity].
  - destruct (has_child (w_fs w) (c :: p)); injection H as <- _; [left; reflexivity|]. right. exists (c :: p). split; [reflexivity|]. split; [discriminate|reflexivity].
  - injection H as <- _. right. exists (c :: p). split; [reflexivity|]. split; [discriminate|reflexivity].
  - injection H as <- _. left. reflexivity.
Qed.
Lemma stat_fs E k f s w w' r : syscall E k s (sys_stat (e_cwd E) f s) nothing w = (w', Ret r) -> w_fs w' = w_fs w.
Proof. intros H. unfold syscall in H. destruct (e_faults E (w_ops w) k); [|injection H as <- _; reflexivity|discriminate]. unfold sys_stat in H. injection H as <- _. reflexivity. Qed.
Lemma link_target_effect dev D q e w w' t : reads_from D dev -> link_target dev q e w = (w', Ret (Some t)) -> is_target q D e t /\ w_fs w' = w_fs w.
Proof.
  intros HD H. unfold link_target in H. apply bind_ret_inv in H as (w1 & inl & HA & H). apply lift_ret_inv in HA as [HA ->]. unfold FileExtentItem_IsInline in HA.
  destruct (FileExtentItem_Type e) as [ty| |] eqn:ET; try discriminate. cbn [rbind] in HA. injection HA as <-. change FileExtentInline with 0 in H. destruct (ty =? 0) eqn:E0.
  - apply Z.eqb_eq in E0. subst ty. apply bind_ret_inv in H as (w1 & d & HA & H). apply lift_ret_inv in HA as [HA ->]. apply ret_inv in H as [H ->]. injection H as ->. split; [left; auto|reflexivity].
  - apply Z.eqb_neq in E0. apply bind_ret_inv in H as (w1 & nr & HA & H). apply lift_ret_inv in HA as [Hnr ->]. destruct (0 <? nr) eqn:EN; [|apply ret_inv in H as [H _]; discriminate].
    apply bind_ret_inv in H as (w1 & [id phys] & HA & H). apply lift_ret_inv in HA as [Hph ->]. apply bind_ret_inv in H as (w1 & o & HA & H). apply lift_ret_inv in HA as [Hof ->].
    apply bind_ret_inv in H as (w1 & n & HA & H). apply lift_ret_inv in HA as [Hn ->]. apply bind_ret_inv in H as (w1 & buf & HA & H). apply lift_ret_inv in HA as [HB ->]. apply make_inv in HB as [-> Hn0].
    apply bind_ret_inv in H as (w1 & [d err] & HA & H). unfold devRead in HA. pose proof (u64_range (phys + o)) as Hu. unfold is_u64 in Hu. specialize (HD n (i64 (u64 (phys + o)))). destruct (dev n (i64 (u64 (phys + o)))) as [d0 e0].
    injection HA as <- -> ->. destruct err as [er|]; apply ret_inv in H as [H ->]; [discriminate|]. injection H as <-. split; [|reflexivity]. destruct HD as [HN HP].
    assert (Hso : 0 <= i64 (u64 (phys + o))) by (destruct (Z.ltb_spec (i64 (u64 (phys + o))) 0) as [C|C]; [discriminate (HN C)|exact C]). destruct (HP Hso Hn0) as (_ & Hd & Hfull). specialize (Hfull eq_refl).
    assert (Hlen : length d = Z.to_nat n) by (unfold zlen in Hfull; lia). assert (Hsu : i64 (u64 (phys + o)) = u64 (phys + o)) by (unfold i64 in *; lia). rewrite Hsu in Hd. right.
    assert (Happ : d ++ skipn (length d) (zeros n) = d) by (rewrite skipn_all2 by (unfold zeros; rewrite repeat_length; lia); apply app_nil_r).
    rewrite Happ. exists ty, n, nr, id, phys, o. change ((phys + o) mod 2^64) with (u64 (phys + o)). rewrite <- Hlen. repeat split; auto. lia.
Qed.
(** ** resolving a path again after its last entry is gone, or changed between
    missing and plain file *)
Lemma walk_del F p fl : p <> [] -> forall L todo cur q, walk L (del F p) fl todo cur = Some q -> q = p \/ walk L F fl todo cur = Some q.
Proof.
  intros Hp. induction L as [|L IHL]; (induction todo as [|c rest IH]; intros cur q H; [rewrite walk_nil in *; right; exact H|]); rewrite walk_cons in *;
    (destruct (is_dotdot c); [apply IH; exact H|]); (destruct (long_name c); [discriminate|]); rewrite look_del in H by exact Hp;
    (destruct (cpath_dec p (cur ++ [c])) as [->|N]; [destruct rest; [injection H as <-; left; reflexivity|discriminate]|]); destruct (look F (cur ++ [c])) as [[ct| |t]|];
    try (right; exact H); try (apply IH; exact H).
  destruct (match rest with [] => negb fl | _ => false end); [right; exact H|]. apply IHL. exact H.
Qed.
(** what the path walk can tell apart *)
Definition same_shape (F F' : fs) : Prop := forall p, look F' p = look F p \/
  (match look F p with None | Some (NFile _) => True | _ => False end /\ match look F' p with None | Some (NFile _) => True | _ => False end).
Lemma walk_shape F F' fl : same_shape F F' -> forall L todo cur, walk L F' fl todo cur = walk L F fl todo cur.
Proof.
  intros HS. induction L as [|L IHL]; (induction todo as [|c rest IH]; intros cur; [rewrite !walk_nil; reflexivity|]); rewrite !walk_cons;
    (destruct (is_dotdot c); [apply IH|]); (destruct (long_name c); [reflexivity|]); (destruct (HS (cur ++ [c])) as [->|[H1 H2]];
     [destruct (look F (cur ++ [c])) as [[ct| |t]|]; try reflexivity; try apply IH; destruct (match rest with [] => negb fl | _ => false end); try reflexivity; apply IHL
     |destruct (look F (cur ++ [c])) as [[ct| |t]|]; try contradiction; destruct (look F' (cur ++ [c])) as [[ct'| |t']|]; try contradiction; reflexivity]).
Qed.
Lemma resolve_shape F F' cwd fl s : same_shape F F' -> resolve F' cwd fl s = resolve F cwd fl s.
Proof. intros H. unfold resolve. destruct (path_arg s); [apply walk_shape; exact H|reflexivity]. Qed.

(** C52.  When recovering a symbolic link reports success (and it was not skipped
    because something exists under its name), then -- whatever fails -- the name is now
    a symbolic link with exactly the stored target and nothing else has changed. *)
Theorem C52_target E dev D q clobber owner inode path w w' evs :
  recoverSymlink E dev q clobber owner inode path w = (w', Ret true) -> reads_from D dev ->
  w_log w' = evs ++ w_log w -> In (EvOp OSymlink path true) evs ->
  exists p e t, resolve (w_fs w) (e_cwd E) false path = Some p /\ q_extent0 q owner inode = Ok (Some e) /\ is_target q D e t /\
    look (w_fs w') p = Some (NLink t) /\ (forall p', p' <> p -> look (w_fs w') p' = look (w_fs w) p').
Proof.
  intros H HD Hlog Hin. unfold recoverSymlink in H. apply bind_ret_inv in H as (w1 & k & HS & H). pose proof (stat_fs _ _ _ _ _ _ _ HS) as HF1.
  destruct (is_some k && negb clobber) eqn:EK.
  { exfalso. apply ret_inv in H as [_ ->]. unfold Lstat, syscall in HS. destruct (e_faults E (w_ops w) OLstat); [unfold sys_stat in HS| |discriminate]; injection HS as <- _; cbn [w_log] in Hlog;
      match type of Hlog with ?e :: ?l = _ => change (e :: l) with ([e] ++ l) in Hlog end; apply app_inv_tail in Hlog; subst evs; destruct Hin as [HO|[]]; discriminate. }
  apply bind_ret_inv in H as (w2 & r & HR & H). assert (HF2 : w_fs w2 = w_fs w \/ exists p, resolve (w_fs w) (e_cwd E) false path = Some p /\ p <> [] /\ w_fs w2 = del (w_fs w) p).
  { destruct (is_some k); [|apply ret_inv in HR as [_ ->]; left; exact HF1]. apply remove_effect in HR. rewrite HF1 in HR. exact HR. }
  apply bind_ret_inv in H as (w3 & e & HA & H). apply lift_ret_inv in HA as [He ->]. destruct e as [e|]; [|apply ret_inv in H as [H _]; discriminate].
  apply bind_ret_inv in H as (w3 & t & HT & H). destruct t as [t|]; [|apply ret_inv in H as [H _]; discriminate]. destruct (link_target_effect _ D _ _ _ _ _ HD HT) as [Ht HF3].
  apply bind_ret_inv in H as (w4 & r' & HL & H). apply ret_inv in H as [Hr ->]. destruct r' as [[]|]; [|discriminate]. destruct (symlink_effect _ _ _ _ _ HL) as (p & Hp & Hnone & Hlink & Hsame).
  exists p, e, t. rewrite HF3 in *. destruct HF2 as [HF2|(p0 & Hp0 & Hr0 & HF2)]; rewrite HF2 in *.
  - split; [exact Hp|]. split; [exact He|]. split; [exact Ht|]. split; [exact Hlink|]. intros p' Hp'. rewrite (Hsame p' Hp'), HF3. reflexivity.
  - assert (Hpp : p = p0). { unfold resolve in Hp, Hp0. destruct (path_arg path); [|discriminate]. destruct (walk_del _ _ _ Hr0 _ _ _ _ Hp) as [HX|HX]; [exact HX|congruence]. }
    subst p0. split; [exact Hp0|]. split; [exact He|]. split; [exact Ht|]. split; [exact Hlink|]. intros p' Hp'. rewrite (Hsame p' Hp'), HF3. rewrite look_del by exact Hr0. destruct (cpath_dec p p'); [congruence|reflexivity].
Qed.
Print Assumptions C52_target.
(** C52.  Without --clobber no existing entry is replaced or removed, whatever
    fails, and wherever the process is killed. *)
Theorem C52_no_clobber E dev q owner inode path w w' o :
  recoverSymlink E dev q false owner inode path w = (w', o) -> forall p n, look (w_fs w) p = Some n -> look (w_fs w') p = Some n.
Proof.
  set (R := fun w w' => forall p n, look (w_fs w) p = Some n -> look (w_fs w') p = Some n). intros H. change (R w w').
  assert (Rr : forall w, R w w) by (intros w0 p n Hp; exact Hp). assert (Rt : forall a b c, R a b -> R b c -> R a c) by (intros a b c H1 H2 p n Hp; apply H2, H1, Hp).
  revert w w' o H. change (keeps R (recoverSymlink E dev q false owner inode path)). unfold recoverSymlink.
  assert (Hst : keeps R (Lstat E path)).
  { intros w w' o H p n Hp. unfold Lstat, syscall in H. destruct (e_faults E (w_ops w) OLstat); [unfold sys_stat in H| |]; injection H as <- _; exact Hp. }
  apply (keeps_bind R Rt); [exact Hst|]. intros k. destruct k as [k|]; cbn [is_some negb andb]; [apply keeps_ret; exact Rr|]. apply (keeps_bind R Rt); [apply keeps_ret; exact Rr|]. intros _.
  apply keeps_lift_bind; [exact Rr|]. intros [e|] _; [|apply keeps_ret; exact Rr]. apply (keeps_bind R Rt).
  - apply (keeps_target R Rr Rt). intros n off w w' o H. unfold devRead in H. destruct (dev n off). injection H as <- _. intros p x Hx. exact Hx.
  - intros [t|]; [|apply keeps_ret; exact Rr]. apply (keeps_bind R Rt); [|intros; apply keeps_ret; exact Rr].
    intros w w' o H p n Hp. unfold Symlink, syscall in H. destruct (e_faults E (w_ops w) OSymlink); [|injection H as <- _; exact Hp|injection H as <- _; exact Hp]. unfold sys_symlink in H.
    destruct (path_arg t); [|injection H as <- _; exact Hp]. destruct (resolve (w_fs w) (e_cwd E) false path) as [p0|]; [|injection H as <- _; exact Hp]. destruct (look (w_fs w) p0) eqn:E0; injection H as <- _; [exact Hp|].
    assert (Hr : p0 <> []) by (apply (look_missing (w_fs w)); rewrite E0; discriminate). cbn [w_fs]. rewrite look_put_other; [exact Hp|congruence|exact Hr].
Qed.
Print Assumptions C52_no_clobber.
(** C52 on a damaged device: creating a link comes to an end; if its target can be read, it succeeds. *)
Theorem C52_from_damaged E dev D q clobber owner inode path w p e t :
  no_faults E -> reads_from D dev -> zlen D < 2^63 ->
  resolve (w_fs w) (e_cwd E) false path = Some p -> q_extent0 q owner inode = Ok (Some e) -> is_target q D e t -> path_arg t = true ->
  (look (w_fs w) p = None \/
   (clobber = true /\ (exists x, look (w_fs w) p = Some (NFile x) \/ look (w_fs w) p = Some (NLink x)) /\ resolve (del (w_fs w) p) (e_cwd E) false path = Some p)) ->
  exists w' ok, recoverSymlink E dev q clobber owner inode path w = (w', Ret ok) /\
    (target_readable q dev e -> ok = true /\ look (w_fs w') p = Some (NLink t) /\ (forall p', p' <> p -> look (w_fs w') p' = look (w_fs w) p')).
Proof.
  intros HE HD HDl Hp He Ht Hta HC. assert (Hr : p <> []) by (apply (look_missing (w_fs w)); destruct HC as [->|(_ & (x & [->| ->]) & _)]; discriminate).
  assert (HT : forall w1, exists w2 r, link_target dev q e w1 = (w2, Ret r) /\ w_fs w2 = w_fs w1 /\ (r = Some t \/ r = None) /\ (target_readable q dev e -> r = Some t)).
  { intros w1. unfold link_target, FileExtentItem_IsInline. destruct Ht as [(HTy & Hd)|(ty & n & nr & id & phys & o & HTy & HT0 & Hn & Hnr & Hnz & Hph & Hof & Hlen & Ht)].
    - rewrite HTy. cbn [rbind]. unfold bind, lift. change (0 =? FileExtentInline) with true. cbv beta iota. rewrite Hd. exists w1, (Some t). auto.
    - rewrite HTy. cbn [rbind]. change FileExtentInline with 0. replace (ty =? 0) with false by lia. unfold bind at 1, lift at 1. rewrite Hnr. unfold bind at 1, lift at 1. pose proof (at64_range _ _ _ Hnr). replace (0 <? nr) with true by lia.
      rewrite Hph. unfold bind at 1, lift at 1. rewrite Hof. unfold bind at 1, lift at 1. rewrite Hn. unfold bind at 1, lift at 1. pose proof (u64_range (phys + o)) as Hu. unfold is_u64 in Hu.
      change ((phys + o) mod 2^64) with (u64 (phys + o)) in Ht. assert (HG : target_readable q dev e -> readable dev (u64 (phys + o)) n) by (intros HG; exact (HG _ _ _ _ _ _ HTy HT0 Hn Hnr Hph Hof)). set (src := u64 (phys + o)) in *. clearbody src. pose proof (at64_range _ _ _ Hn) as Hnr2.
      assert (Hn1 : 0 < n < 4096). { assert (Hz : zlen t < 4096) by (unfold path_arg in Hta; lia). pose proof (zlen_nonneg t) as Hz0. destruct t as [|x t]; [discriminate|]. pose proof (zlen_cons x t). pose proof (zlen_nonneg t). lia. }
      assert (Hcov : src + n <= zlen D). { unfold zlen in Hlen. rewrite Ht in Hlen. rewrite firstn_length, skipn_length in Hlen. unfold zlen. lia. }
      unfold make_bytes. replace ((0 <=? n) && (n <=? 2^48)) with true by lia. unfold bind at 1, lift at 1. rewrite (i64_small src) by lia. specialize (HD n src). assert (HG' : target_readable q dev e -> snd (dev n src) = None) by (intros HH; apply (HG HH); lia). clear HG.
      unfold bind, devRead. destruct (dev n src) as [d err]. cbn [snd] in HG'.
      destruct err as [err|]; [eexists; exists None; split; [reflexivity|]; split; [reflexivity|]; split; [right; reflexivity|]; intros HH; discriminate (HG' HH)|]. destruct HD as [_ HP]. destruct (HP ltac:(lia) ltac:(lia)) as (_ & Hd & Hf). specialize (Hf eq_refl).
      assert (Hdl : length d = Z.to_nat n) by (unfold zlen in Hf; lia). rewrite Hdl in Hd. rewrite skipn_all2 by (unfold zeros; rewrite repeat_length; lia). rewrite app_nil_r, Hd, <- Ht. eexists. exists (Some t). split; [reflexivity|]. split; [reflexivity|]. auto. }
  assert (HS : exists w1, Lstat E path w = (w1, Ret (option_map kind_of (look (w_fs w) p))) /\ w_fs w1 = w_fs w).
  { unfold Lstat, syscall. rewrite HE. unfold sys_stat. rewrite Hp. eexists. split; reflexivity. }
  destruct HS as (w1 & HS & HF1). unfold recoverSymlink. unfold bind at 1. rewrite HS.
  assert (HR : exists w2, (if is_some (option_map kind_of (look (w_fs w) p)) then Remove E path else ret None) w1 = (w2, Ret (if is_some (look (w_fs w) p) then Some tt else None)) /\
     resolve (w_fs w2) (e_cwd E) false path = Some p /\ look (w_fs w2) p = None /\ (forall p', p' <> p -> look (w_fs w2) p' = look (w_fs w) p')).
  { destruct HC as [HC|(Hcl & (x & HC) & Hres)].
    - rewrite HC. exists w1. rewrite HF1. split; [reflexivity|]. split; [exact Hp|]. split; [exact HC|reflexivity].
    - assert (HDel : exists w2, Remove E path w1 = (w2, Ret (Some tt)) /\ w_fs w2 = del (w_fs w) p).
      { unfold Remove, syscall. rewrite HE. unfold sys_remove. rewrite HF1, Hp. destruct p as [|c p]; [congruence|]. destruct HC as [HC|HC]; rewrite HC; eexists; split; reflexivity. }
      destruct HDel as (w2 & HDel & HF2). exists w2. split; [destruct HC as [->| ->]; exact HDel|]. rewrite HF2. split; [exact Hres|]. split; [rewrite look_del by exact Hr; destruct (cpath_dec p p); [reflexivity|congruence]|].
      intros p' Hp'. rewrite look_del by exact Hr. destruct (cpath_dec p p'); [congruence|reflexivity]. }
  destruct HR as (w2 & HR & Hres & Hnone & Hsame).
  assert (HK : is_some (option_map kind_of (look (w_fs w) p)) && negb clobber = false) by (destruct HC as [->|(-> & (x & [->| ->]) & _)]; reflexivity).
  rewrite HK. unfold bind at 1. rewrite HR. rewrite He. unfold bind at 1, lift at 1. destruct (HT w2) as (w3 & rt & HT3 & HF3 & Hrt & HRd). unfold bind at 1. rewrite HT3.
  destruct rt as [t'|]; [|exists w3, false; split; [reflexivity|]; intros HH; discriminate (HRd HH)]. assert (t' = t) by (destruct Hrt; congruence). subst t'.
  assert (HL : exists w4, Symlink E t path w3 = (w4, Ret (Some tt)) /\ w_fs w4 = put_node (w_fs w2) p (NLink t)).
  { unfold Symlink, syscall. rewrite HE. unfold sys_symlink. rewrite Hta, HF3, Hres, Hnone. eexists. split; reflexivity. }
  destruct HL as (w4 & HL & HF4). unfold bind. rewrite HL. exists w4, true. split; [reflexivity|]. intros _. split; [reflexivity|]. rewrite HF4. split; [apply look_put_same; exact Hr|]. intros p' Hp'. rewrite look_put_other by assumption. apply Hsame. exact Hp'.
Qed.
Print Assumptions C52_from_damaged.
(** C52, the other direction: without faults, a link whose stored target is a legal
    link target gets created under a free name (with --clobber: also in place of an
    existing file or link). *)
Theorem C52_recovers E dev D q clobber owner inode path w p e t :
  no_faults E -> good_device D dev -> zlen D < 2^63 ->
  resolve (w_fs w) (e_cwd E) false path = Some p -> q_extent0 q owner inode = Ok (Some e) -> is_target q D e t -> path_arg t = true ->
  (look (w_fs w) p = None \/
   (clobber = true /\ (exists x, look (w_fs w) p = Some (NFile x) \/ look (w_fs w) p = Some (NLink x)) /\ resolve (del (w_fs w) p) (e_cwd E) false path = Some p)) ->
  exists w', recoverSymlink E dev q clobber owner inode path w = (w', Ret true) /\ look (w_fs w') p = Some (NLink t) /\
    (forall p', p' <> p -> look (w_fs w') p' = look (w_fs w) p').
Proof.
  intros HE HD HDl Hp He Ht Hta HC. destruct (C52_from_damaged E dev D q clobber owner inode path w p e t HE (proj1 HD) HDl Hp He Ht Hta HC) as (w' & ok & H1 & H2). destruct H2 as (-> & H2); [|exists w'; auto].
  destruct Ht as [(HTy & Hd)|(ty & n & nr & id & phys & o & HTy & HT0 & Hn & Hnr & Hnz & Hph & Hof & Hlen & Ht)]; intros ty' n' nr' id' phys' o' A1 A2 A3 A4 A5 A6; [congruence|].
  assert (n' = n) by congruence. assert (nr' = nr) by congruence. subst n' nr'. assert (phys' = phys) by congruence. assert (o' = o) by congruence. subst. intros k b B1 B2 B3. pose proof (u64_range (phys + o)) as Hu. unfold u64, is_u64 in Hu.
  assert (Hn1 : 0 < zlen t). { pose proof (zlen_nonneg t). destruct t as [|x t]; [discriminate|]. pose proof (zlen_cons x t). pose proof (zlen_nonneg t). lia. }
  apply (proj2 HD); [lia|exact B2|]. unfold zlen in *. rewrite Ht in Hn1, B3. rewrite firstn_length, skipn_length in *. lia.
Qed.
Print Assumptions C52_recovers.

(** ** C51 *)
Definition plain_or_none (w : world) (p : cpath) : Prop := look (w_fs w) p = None \/ exists c, look (w_fs w) p = Some (NFile c).
(** an interrupted recoverFile leaves at most a partial file at the place of [path] *)
Lemma file_leaves cfuel E dev q clobber owner inode path w w' o p : recoverFile cfuel E dev q clobber owner inode path w = (w', o) ->
  resolve (w_fs w) (e_cwd E) true path = Some p -> plain_or_none w p -> same_but p w w' /\ plain_or_none w' p.
Proof.
  intros H HR HP. set (R := fun w w' => same_but p w w' /\ (plain_or_none w p -> plain_or_none w' p)).
  assert (Rr : forall w, R w w) by (intros w0; split; [apply same_but_refl|auto]). assert (Rt : forall a b c, R a b -> R b c -> R a c) by (intros a b c [H1 H2] [H3 H4]; split; [exact (same_but_trans _ _ _ _ H1 H3)|auto]).
  assert (Rfs : forall a b, w_fs b = w_fs a -> R a b) by (intros a b HF; unfold R, plain_or_none, same_but; rewrite HF; auto).
  assert (G : R w w'); [|destruct G as [G1 G2]; auto].
  unfold recoverFile in H. unfold bind at 1 in H. destruct (Stat E path w) as [w1 o1] eqn:ES.
  assert (HF1 : w_fs w1 = w_fs w) by (unfold Stat, syscall in ES; destruct (e_faults E (w_ops w) OStat); [unfold sys_stat in ES| |]; injection ES as <- _; reflexivity).
  assert (R1 : R w w1) by (apply Rfs; exact HF1). assert (HR1 : resolve (w_fs w1) (e_cwd E) true path = Some p) by (rewrite HF1; exact HR).
  destruct o1 as [k| | |]; [|injection H as <- _; exact R1|injection H as <- _; exact R1|injection H as <- _; exact R1]. refine (Rt _ _ _ R1 _). clear R1 ES HF1 HR HP.
  revert H. destruct (is_some k && negb clobber); intros H; [unfold ret in H; injection H as <- _; apply Rr|].
  unfold bind at 1 in H. destruct (lift (q_inode q owner inode) w1) as [w2 o2] eqn:EI. assert (w2 = w1) by (unfold lift in EI; destruct (q_inode q owner inode); injection EI as <- _; reflexivity). subst w2.
  destruct o2 as [it| | |]; [|injection H as <- _; apply Rr|injection H as <- _; apply Rr|injection H as <- _; apply Rr].
  unfold bind at 1 in H. destruct (lift _ w1) as [w2 o2] eqn:EJ. assert (w2 = w1) by (unfold lift in EJ; destruct (match it with Some d => _ | None => _ end); injection EJ as <- _; reflexivity). subst w2.
  destruct o2 as [ii| | |]; [|injection H as <- _; apply Rr|injection H as <- _; apply Rr|injection H as <- _; apply Rr].
  unfold bind at 1 in H. destruct (OpenFile E path w1) as [w2 o2] eqn:EO.
  assert (HO : R w1 w2 /\ match o2 with Ret (Some h) => h = p | _ => True end).
  { unfold OpenFile, syscall in EO. destruct (e_faults E (w_ops w1) OOpen); [|injection EO as <- <-; split; [apply Rfs; reflexivity|exact Logic.I]|injection EO as <- <-; split; [apply Rfs; reflexivity|exact Logic.I]].
    unfold sys_open in EO. rewrite HR1 in EO.
    assert (G : look (w_fs w1) p <> Some NDir -> forall l n, R w1 (mkWorld (put_node (w_fs w1) p (NFile [])) n l)).
    { intros HN l n. pose proof (look_missing _ _ HN) as Hr. split; [intros p' Hp'; apply look_put_other; assumption|]. intros _. right. exists []. apply look_put_same. exact Hr. }
    destruct (look (w_fs w1) p) as [[c| |t]|] eqn:EL; injection EO as <- <-; (split; [|try reflexivity; exact Logic.I]); try (apply Rfs; reflexivity); apply G; discriminate. }
  destruct HO as [HO Hh]. refine (Rt _ _ _ HO _). destruct o2 as [[h|]| | |]; [|unfold ret in H; injection H as <- _; apply Rr|injection H as <- _; apply Rr|injection H as <- _; apply Rr|injection H as <- _; apply Rr]. subst h. cbv zeta in H.
  refine (keeps_fill R Rr Rt cfuel E dev q path _ p _ _ ii (q_extents q owner inode) w2 w' o H).
  - intros n off wa wb oo HX. unfold devRead in HX. destruct (dev n off). injection HX as <- _. apply Rfs; reflexivity.
  - intros d off wa wb oo HX. assert (GW : forall d, R wa (mkWorld (fst (sys_write p d off (w_fs wa))) (S (w_ops wa)) (w_log wb))).
    { intros d0. unfold sys_write. destruct (off <? 0); [apply Rfs; reflexivity|]. destruct (is_nil d0); [apply Rfs; reflexivity|]. destruct (2^63 - 1 <? off + zlen d0); [apply Rfs; reflexivity|].
      destruct (look (w_fs wa) p) as [[c| |t]|] eqn:EL; try (apply Rfs; reflexivity). pose proof (file_not_root _ _ _ EL) as Hr. cbn [fst].
      split; [intros p' Hp'; apply look_put_other; assumption|]. intros _. right. eexists. apply look_put_same. exact Hr. }
    unfold WriteAt, syscall in HX. destruct (e_faults E (w_ops wa) OWrite) as [|n|n].
    + specialize (GW d). destruct (sys_write p d off (w_fs wa)) as [F r]. injection HX as <- _. exact GW.
    + specialize (GW (firstn n d)). unfold sys_write_some in HX. destruct (sys_write p (firstn n d) off (w_fs wa)) as [F r]. injection HX as <- _. exact GW.
    + specialize (GW (firstn n d)). unfold sys_write_some in HX. destruct (sys_write p (firstn n d) off (w_fs wa)) as [F r]. injection HX as <- _. exact GW.
  - intros sz wa wb oo HX. unfold FTruncate, syscall in HX. destruct (e_faults E (w_ops wa) OTrunc) as [|n|n]; [|injection HX as <- _; apply Rfs; reflexivity|injection HX as <- _; apply Rfs; reflexivity].
    unfold sys_trunc in HX. destruct (sz <? 0); [injection HX as <- _; apply Rfs; reflexivity|]. destruct (look (w_fs wa) p) as [[c| |t]|] eqn:EL; injection HX as <- _; try (apply Rfs; reflexivity).
    pose proof (file_not_root _ _ _ EL) as Hr. split; [intros p' Hp'; apply look_put_other; assumption|]. intros _. right. eexists. apply look_put_same. exact Hr.
Qed.
(** C51.  However recovering a file was interrupted or failed (killed during any system
    call, any faults, any panic), running it again with --clobber and without faults
    gives the complete file.  Missing from the full statement: without --clobber
    the second run skips the partial file (C51_rerun_refuted). *)
Theorem C51_rerun_clobber_partial cfuel cfuel1 E E1 dev dev1 D q clobber1 owner inode path w w1 o1 xs it size p :
  recoverFile cfuel1 E1 dev1 q clobber1 owner inode path w = (w1, o1) -> e_cwd E1 = e_cwd E ->
  resolve (w_fs w) (e_cwd E) true path = Some p -> plain_or_none w p ->
  no_faults E -> good_device D dev -> zlen D < 2^63 -> 2^64 < Z.of_nat cfuel ->
  Forall2 (is_extent q) (st_items (q_extents q owner inode)) xs -> Forall (usable D) xs -> st_end (q_extents q owner inode) = Ok tt ->
  q_inode q owner inode = Ok (Some it) -> InodeItem_Size it = Ok size -> size < 2^63 ->
  exists w' c, recoverFile cfuel E dev q true owner inode path w1 = (w', Ret true) /\
    look (w_fs w') p = Some (NFile c) /\ zlen c = size /\ (forall i, 0 <= i < size -> byte_at c i = file_byte D xs i) /\
    (forall p', p' <> p -> look (w_fs w') p' = look (w_fs w) p').
Proof.
  intros H Hcwd HR HP HE HD HDl Hcf HX HU Hend Hit Hsz Hs63. rewrite <- Hcwd in HR. destruct (file_leaves _ _ _ _ _ _ _ _ _ _ _ _ H HR HP) as [Hsame HP1]. rewrite Hcwd in HR.
  assert (HR1 : resolve (w_fs w1) (e_cwd E) true path = Some p).
  { rewrite <- HR. apply resolve_shape. intros p'. destruct (cpath_dec p' p) as [->|N]; [right|left; apply Hsame; exact N].
    split; [destruct HP as [->|[c ->]]|destruct HP1 as [->|[c ->]]]; exact Logic.I. }
  destruct (C48_recovers cfuel E dev D q true owner inode path w1 xs it size p HE HD HDl Hcf HR1) as (w' & c & H1 & H2 & H3 & H4 & H5); try assumption.
  { destruct HP1 as [HN|[c HN]]; [left; exact HN|right; exists c; auto]. }
  exists w', c. split; [exact H1|]. split; [exact H2|]. split; [exact H3|]. split; [exact H4|]. intros p' Hp'. rewrite (H5 p' Hp'). apply Hsame. exact Hp'.
Qed.
Print Assumptions C51_rerun_clobber_partial.

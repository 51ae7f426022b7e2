(** C89: recover and its destination: exit status 0 only if the destination is there; exit status 1, and no
    file changed, if it cannot be made. *)
From Verif Require Import Go GoProofs PropsSamples Layout KeyFmt Bolt Store Session IoUtil Uuid Identify Recon ReconCmd Path Fs Recover Rescue Ls Cli SpecStore StoreProofs PropsSession SpecFs SpecContent SpecCli PropsCli.
From Verif Require Import PathProofs RecoverProofs PropsRecoverPaths PropsRecoverFile PropsRecoverDfs PropsRecoverEx PropsReconEx PropsTreeEx PropsDiskEx PropsCliEx.
From Coq Require Import ZifyBool List Lia.
Import ListNotations.

(** the nearest of [s] and the directories above that exists is not a directory *)
Inductive no_place (cwd : cpath) (F : fs) : list byte -> Prop :=
| np_here s p nd : resolve F cwd true s = Some p -> look F p = Some nd -> nd <> NDir -> no_place cwd F s
| np_above s s' : (forall p, resolve F cwd true s = Some p -> look F p = None) -> parent_of s = Some s' -> no_place cwd F s' -> no_place cwd F s.
Lemma sys_none {A} E k s (eff : fs -> fs * option A) part w : SpecContent.no_faults E ->
  syscall E k s eff part w = (mkWorld (fst (eff (w_fs w))) (S (w_ops w)) (EvOp k s (is_some (snd (eff (w_fs w)))) :: w_log w), Ret (snd (eff (w_fs w)))).
Proof. intros HE. unfold syscall. rewrite HE. destruct (eff (w_fs w)). reflexivity. Qed.
Lemma mkall_blocked E : SpecContent.no_faults E -> forall fuel s w, (length s < fuel)%nat -> no_place (e_cwd E) (w_fs w) s ->
  exists w', MkdirAll_loop fuel E s w = (w', Ret false) /\ w_fs w' = w_fs w.
Proof.
  intros HE. induction fuel as [|fuel IH]; intros s w Hf HN; [lia|]. cbn [MkdirAll_loop]. unfold bind at 1, Stat. rewrite (sys_none _ _ _ _ _ _ HE). cbv beta iota. cbn [sys_stat fst snd].
  destruct HN as [s p nd HR HL HD|s s' HR HP HN].
  - rewrite HR, HL. cbn [option_map]. destruct nd; cbn [kind_of]; [|congruence|]; eexists; split; reflexivity.
  - assert (ES : match resolve (w_fs w) (e_cwd E) true s with Some p => option_map kind_of (look (w_fs w) p) | None => None end = None) by (destruct (resolve _ _ true s) as [p|] eqn:EQ; [rewrite (HR p eq_refl)|]; reflexivity).
    rewrite ES, HP. unfold bind at 1.
    assert (HL : (length s' < length s)%nat) by (destruct (parent_leading _ _ HP) as (_ & _ & HLs); lia).
    set (w1 := mkWorld _ _ _). destruct (IH s' w1) as (w' & E1 & E2); [lia|exact HN|]. rewrite E1. cbv beta iota. exists w'. split; [reflexivity|exact E2].
Qed.
(** C89: a destination that cannot be made *)
Theorem C89_destination : forall o h g cl image dest,
  SpecContent.no_faults (o_env o) -> no_place (e_cwd (o_env o)) (w_fs (h_world h)) dest -> legible_db (h_db h (g_metadata g)) ->
  let r := btrfscue o h g (CRecover cl) [image; dest] in
  r_end r = Exit1 /\ w_fs (h_world (r_host r)) = w_fs (h_world h) /\ h_db (r_host r) = h_db h.
Proof.
  intros o h g cl image dest HE HN HL. cbv zeta. unfold btrfscue. change (args_ok (CRecover cl) [image; dest]) with true. cbn [negb]. unfold run_recover. destruct (zlen (g_metadata g) =? 0); [auto|].
  unfold open_metadata. destruct (h_db h (g_metadata g)) as [| |d] eqn:EF; [auto..|]. pose proof (open_ro d) as HO.
  assert (HP : OpenReadOnly d <> Panic).
  { intros EP. rewrite EP in HO. destruct HO as (b & m & -> & G). destruct (open_metadata_fails h (g_metadata g) (fun _ _ => fatal h) (fun _ _ => eq_refl)) as [_ HX]. rewrite EF in HX. specialize (HX HL). unfold open_metadata in HX. rewrite EF, EP in HX. cbn [on_res] in HX. discriminate. }
  destruct (OpenReadOnly d) as [[d' [ix|]]| |]; cbn [on_res snd]; [|auto|congruence|destruct HO].
  destruct HO as (b & _ & _ & ->). cbn [tx_bucket]. destruct (h_dev h image) as [dev|]; [|auto].
  destruct (mkall_blocked (o_env o) HE (S (length dest)) dest (h_world h) ltac:(lia) HN) as (w' & E1 & E2). fold (MkdirAll (o_env o) dest) in E1.
  assert (ED : forall fu cf dv q c, exists w2, doRecoverFiles fu cf (o_env o) dv q c dest (h_world h) = (w2, Ret (false, [])) /\ w_fs w2 = w_fs (h_world h)).
  { intros fu cf dv q c. unfold doRecoverFiles. unfold bind at 1. rewrite E1. cbv beta iota. cbn [negb]. eexists. split; [reflexivity|]. exact E2. }
  destruct (ED (o_fuel o) (o_cfuel o) (dev_read dev) (ix_queries (o_rfuel o) b (ix_Generation ix)) cl) as (w2 & R1 & R2). rewrite R1. split; [reflexivity|]. split; [exact R2|reflexivity].
Qed.
Print Assumptions C89_destination.

(** C89: status 0: the destination was found or made, whatever system calls failed *)
Lemma mkall_true E : forall fuel s w w', MkdirAll_loop fuel E s w = (w', Ret true) -> exists k evs, (k = OStat \/ k = OMkdir \/ k = OLstat) /\ w_log w' = EvOp k s true :: evs ++ w_log w.
Proof.
  induction fuel as [|fuel IH]; intros s w w' H; cbn [MkdirAll_loop] in H; [discriminate|].
  apply bind_ret_inv in H as (w1 & k1 & H1 & H). assert (L1 : exists e1, w_log w1 = e1 ++ w_log w /\ (k1 <> None -> e1 = [EvOp OStat s true])).
  { unfold Stat, syscall in H1. destruct (e_faults E (w_ops w) OStat); [|..].
    - destruct (sys_stat (e_cwd E) true s (w_fs w)) as [F r]. injection H1 as <- <-. cbn [w_log]. exists [EvOp OStat s (is_some r)]. split; [reflexivity|]. intros HN. destruct r; [reflexivity|congruence].
    - injection H1 as <- <-. cbn [w_log]. eexists [_]. split; [reflexivity|congruence].
    - discriminate. }
  destruct L1 as (e1 & L1 & L1').
  assert (HT : forall w2 w3, MkdirAll_loop fuel E s w2 = (w3, Ret true) -> True) by auto. clear HT.
  destruct k1 as [[| |]|]; [discriminate| |discriminate|].
  - injection H as <-. rewrite L1, L1' by discriminate. exists OStat, []. split; [auto|reflexivity].
  - apply bind_ret_inv in H as (w2 & ok & H2 & H).
    assert (L2 : exists e2, w_log w2 = e2 ++ w_log w1).
    { destruct (parent_of s) as [p|]; [|injection H2 as <- _; exists []; reflexivity].
      destruct (keeps_mkall_loop (logs quiet) (logs_refl quiet) (logs_trans quiet) E (fun _ => True) ltac:(auto) ltac:(intros s1 _; apply logs_syscall; intros; exact Logic.I) ltac:(intros s1 _; apply logs_syscall; intros; exact Logic.I) ltac:(intros s1 _; apply logs_syscall; intros; exact Logic.I) fuel p Logic.I _ _ _ H2) as (evs & A & _). exists evs. exact A. }
    destruct L2 as (e2 & L2). destruct ok; [|discriminate]. apply bind_ret_inv in H as (w3 & r & H3 & H).
    assert (L3 : exists e3, w_log w3 = e3 ++ w_log w2 /\ (r <> None -> e3 = [EvOp OMkdir s true])).
    { unfold Mkdir, syscall in H3. destruct (e_faults E (w_ops w2) OMkdir).
      - destruct (sys_mkdir (e_cwd E) s (w_fs w2)) as [F x]. injection H3 as <- <-. cbn [w_log]. exists [EvOp OMkdir s (is_some x)]. split; [reflexivity|]. intros HN. destruct x; [reflexivity|congruence].
      - injection H3 as <- <-. cbn [w_log]. eexists [_]. split; [reflexivity|congruence].
      - discriminate. }
    destruct L3 as (e3 & L3 & L3'). destruct r as [u|].
    + injection H as <-. rewrite L3, L3', L2, L1 by discriminate. exists OMkdir, (e2 ++ e1). split; [auto|]. cbn [app]. rewrite app_assoc. reflexivity.
    + apply bind_ret_inv in H as (w4 & k4 & H4 & H). unfold Lstat, syscall in H4. destruct (e_faults E (w_ops w3) OLstat); [| |discriminate].
      * destruct (sys_stat (e_cwd E) false s (w_fs w3)) as [F x]. injection H4 as <- <-. injection H as <- HK. destruct x as [x|]; [|discriminate HK]. cbn [w_log is_some]. rewrite L3, L2, L1.
        exists OLstat, (e3 ++ e2 ++ e1). split; [auto|]. rewrite <- !app_assoc. reflexivity.
      * injection H4 as <- <-. discriminate H.
Qed.
Theorem C89_status : forall o h g cl image dest, let r := btrfscue o h g (CRecover cl) [image; dest] in
  r_end r = Exit0 -> exists k evs1 evs2, (k = OStat \/ k = OMkdir \/ k = OLstat) /\
    w_log (h_world (r_host r)) = evs1 ++ EvOp k dest true :: evs2 ++ w_log (h_world h).
Proof.
  intros o h g cl image dest. cbv zeta. unfold btrfscue. change (args_ok (CRecover cl) [image; dest]) with true. cbn [negb]. unfold run_recover. destruct (zlen (g_metadata g) =? 0); [discriminate|].
  unfold open_metadata. destruct (h_db h (g_metadata g)) as [| |d]; [discriminate..|]. destruct (OpenReadOnly d) as [[d' [ix|]]| |]; cbn [on_res snd]; [|discriminate..].
  destruct (ix_tx ix) as [t|]; [|discriminate]. destruct (h_dev h image) as [dev|]; [|discriminate]. set (q := ix_queries _ _ _). clearbody q.
  destruct (doRecoverFiles _ _ _ _ _ _ _ _) as [w r] eqn:ER. cbn [r_end r_host set_world h_world]. destruct r as [[[] v]| | |]; try discriminate. intros _.
  unfold doRecoverFiles in ER. apply bind_ret_inv in ER as (w1 & ok & H1 & ER). destruct ok; cbn [negb] in ER; [|apply bind_ret_inv in ER as (w2 & u & _ & ER); discriminate ER].
  apply mkall_true in H1 as (k & evs & HK & HL).
  assert (HX : logs (fun _ => True) w1 w).
  { revert ER. set (R := logs (fun _ : event => True)). assert (Rr : forall w, R w w) by apply logs_refl. assert (Rt : forall a b c, R a b -> R b c -> R a c) by (intros a b c; apply logs_trans).
    assert (HQ : forall A (m : M A), keeps (logs quiet) m -> keeps R m) by (intros A m Hm x x' y Hy; apply (logs_weaken quiet); [auto|exact (Hm _ _ _ Hy)]).
    assert (HEm : forall e, keeps R (emit e)) by (intros e; apply logs_emit; exact Logic.I).
    assert (A1 : forall s, True -> keeps R (MkdirAll (o_env o) s)) by (intros; apply HQ, quiet_mkall).
    assert (A2 : forall ow i s, True -> keeps R (recoverFile (o_cfuel o) (o_env o) (dev_read dev) q cl ow i s)) by (intros; apply HQ, quiet_file).
    assert (A3 : forall (di : slice) (ow : Z) (dest : list byte) i s, True -> classify ow dest di = Ok (ALink i s) -> True -> keeps R (recoverSymlink (o_env o) (dev_read dev) q cl ow i s)) by (intros; apply HQ, quiet_link).
    assert (A4 : forall ow d, Forall (fun e : list byte * slice => True) (st_items (q_dirItems q ow d))) by (intros; apply Forall_forall; auto).
    intros ER. revert ER.
    match goal with |- ?m w1 = _ -> _ => assert (HM : keeps R m) end; [|apply HM].
    apply keeps_bind; [exact Rt|apply (keeps_dir R Rr Rt (o_cfuel o) (o_env o) (dev_read dev) q cl (fun _ => True) (fun _ => True)); auto|].
    intros [v1 ok]. apply keeps_bind; [exact Rt|apply keeps_warn; auto|]. intros _. apply keeps_bind; [exact Rt| |intros; apply keeps_ret; exact Rr].
    apply (keeps_subvols R Rr Rt (o_cfuel o) (o_env o) (dev_read dev) q cl (fun _ => True) (fun _ => True)); auto. apply Forall_forall. intros e _. apply ik_ObjectID_pos. }
  destruct HX as (evs1 & E1 & _). exists k, evs1, evs. split; [exact HK|]. rewrite E1, HL. reflexivity.
Qed.
Print Assumptions C89_status.
(** a file /o is there: /o cannot be the destination, nor can /o/d *)
Example C89_ex_destination : no_place [] F_o (abs1 s_o) /\ no_place [] F_o (abs1 s_o ++ abs1 s_d).
Proof.
  assert (H : no_place [] F_o (abs1 s_o)) by (apply (np_here [] F_o (abs1 s_o) [s_o] (NFile [x00])); [vm_compute; reflexivity|vm_compute; reflexivity|discriminate]).
  split; [exact H|]. apply (np_above [] F_o _ (abs1 s_o)); [|vm_compute; reflexivity|exact H]. intros p Hp. vm_compute in Hp. discriminate Hp.
Qed.
(** a destination that is not there yet can be made *)
Example C89_ex_place : ~ no_place [] F_o (abs1 s_d).
Proof. intros H. inversion H as [? p nd HR HL HD|? s' HR HP HN]; subst; [vm_compute in HR; injection HR as <-; vm_compute in HL; discriminate|vm_compute in HP; discriminate]. Qed.

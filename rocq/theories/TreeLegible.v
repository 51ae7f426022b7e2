(** Recovering a file or link about which the index has legible but possibly incomplete answers comes to an end. *)
From Verif Require Import Go GoProofs Layout KeyFmt Bolt Store Fs Recover RecoverProofs SpecFs SpecContent FsProofs PropsRecoverDfs PropsRecoverFile PropsRecoverLink SpecTree SpecDamage TreeProofs TreeRun TreeFull.
From Coq Require Import ZifyBool ZifyNat ZifyN.
Ltac Zify.zify_post_hook ::= Z.div_mod_to_equations.

Definition ends {A} (m : M A) : Prop := forall w, exists w' a, m w = (w', Ret a).
Lemma ends_ret A (a : A) : ends (ret a).
Proof. intros w. eexists. eexists. reflexivity. Qed.
Lemma ends_bind A B (m : M A) (f : A -> M B) : ends m -> (forall a, ends (f a)) -> ends (bind m f).
Proof. intros Hm Hf w. unfold bind. destruct (Hm w) as (w1 & a & ->). apply Hf. Qed.
Lemma ends_ok A B (r : Res A) a (f : A -> M B) : r = Ok a -> ends (f a) -> ends (bind (lift r) f).
Proof. intros -> Hf w. unfold bind, lift. apply Hf. Qed.
Lemma ends_sys A E k s (eff : fs -> fs * option A) part : no_faults E -> ends (syscall E k s eff part).
Proof. intros HE w. unfold syscall. rewrite HE. destruct (eff (w_fs w)) as [F r]. eexists. eexists. reflexivity. Qed.
Lemma ends_read dev n off : ends (devRead dev n off).
Proof. intros w. unfold devRead. destruct (dev n off) as [d e]. eexists. eexists. reflexivity. Qed.
#[local] Hint Resolve ends_ret ends_sys ends_read : ends.
#[local] Hint Unfold Stat Lstat OpenFile WriteAt FTruncate Remove Symlink : ends.

Lemma copy_ends E dev D h path n src off : no_faults E -> reads_from D dev -> 0 <= n < 2^64 ->
  forall fuel copied, 0 <= copied <= n -> n - copied < Z.of_nat fuel -> ends (copy_loop fuel E dev h path n src off copied).
Proof.
  intros HE HD Hn. induction fuel as [|fuel IH]; intros copied Hc Hf; [lia|]. cbn [copy_loop]. cbv zeta. destruct (copied <? n) eqn:C0; [|apply ends_ret].
  assert (Hu : u64 (n - copied) = n - copied) by (apply u64_small; unfold is_u64; lia). rewrite Hu. set (m := if chunkSize <? n - copied then chunkSize else n - copied).
  assert (Hm : 0 < m <= n - copied) by (unfold m, chunkSize; destruct (1024 * 1024 <? n - copied) eqn:C; lia). clearbody m.
  intros w. set (a := i64 (u64 (src + copied))). clearbody a. specialize (HD m a). unfold bind at 1, devRead. destruct (dev m a) as [d err]. destruct HD as [HD1 HD2].
  match goal with |- exists w' x, ?M ?W = _ => enough (HX : ends M) by exact (HX W) end.
  apply ends_bind; [destruct (0 <? zlen d); [apply ends_bind; [apply ends_sys; exact HE|auto with ends]|apply ends_ret]|]. intros b. destruct (negb b); [apply ends_ret|].
  destruct err as [[]|]; [match goal with |- ends (if ?b then _ else _) => destruct b; apply ends_ret end|apply ends_ret|].
  destruct (Z.ltb_spec a 0) as [Ha|Ha]; [discriminate (HD1 Ha)|]. destruct (HD2 Ha ltac:(lia)) as (_ & _ & Hz). specialize (Hz eq_refl). rewrite u64_small by (unfold is_u64; lia). apply IH; lia.
Qed.
Lemma inline_ends E h path ii off e d : no_faults E -> FileExtentItem_Data e = Ok d -> 0 <= off -> off + zlen d < 2^63 -> match ii with Some s => 0 <= s < 2^63 | None => True end ->
  ends (inline_extent E h path ii off e).
Proof.
  intros HE Ed Ho Hd Hs. unfold inline_extent. apply (ends_ok _ _ _ d); [exact Ed|]. cbv zeta. pose proof (zlen_nonneg d) as Hd0. set (limit := match ii with Some _ => _ | None => _ end).
  assert (Hl : limit <= zlen d).
  { unfold limit. destruct ii as [s|]; [|lia]. rewrite (i64_small s) by exact Hs. rewrite (i64_small off) by lia. rewrite (i64_small (off + zlen d)) by lia. destruct (s <? off + zlen d) eqn:C; unfold i64, u64; lia. }
  clearbody limit. destruct (0 <? limit) eqn:CL; [|apply ends_ret]. assert (HG : exists dd, go_to (sl d) limit = Ok dd) by (unfold go_to; rewrite go_slice_ok by (rewrite ?scap_sl; lia); eauto).
  destruct HG as (dd & HG). apply (ends_ok _ _ _ dd); [exact HG|]. apply ends_bind; [apply ends_sys; exact HE|auto with ends].
Qed.
Lemma extents_end cfuel E dev D q h path ii : no_faults E -> reads_from D dev -> 2^64 < Z.of_nat cfuel -> match ii with Some s => 0 <= s < 2^63 | None => True end ->
  forall l xs, Forall2 (is_extent q) l xs -> Forall (fun x => ext_off x + ext_len x < 2^63 /\ (forall off n, x = Hole off n -> n <= 2^48)) xs -> ends (extents_loop cfuel E dev q h path ii l (Ok tt)).
Proof.
  intros HE HD Hcf Hs l xs HX. induction HX as [|[k e] x l xs Hx HX IH]; intros HU; cbn [extents_loop]; [apply (ends_ok _ _ _ tt); [reflexivity|apply ends_ret]|].
  inversion HU as [|? ? HU1 HU2]; subst. cbv zeta. pose proof (ik_offset_range k) as Ho.
  assert (R : forall f : M flow, ends f -> ends (f0 <~ f ;; match f0 with Returned ok => ret (Returned ok) | Go_on => extents_loop cfuel E dev q h path ii l (Ok tt) end)).
  { intros f Hf. apply ends_bind; [exact Hf|]. intros [|ok]; [exact (IH HU2)|apply ends_ret]. }
  destruct HU1 as [HU1 HU3]. unfold FileExtentItem_IsInline. destruct Hx as [(d & HT & Hd & ->)|[(t & n & HT & HT0 & Hn & Hnr & ->)|(t & n & nr & id & phys & o & HT & HT0 & Hn & Hnr & Hnz & Hph & Hof & ->)]].
  - apply (ends_ok _ _ _ true); [rewrite HT; reflexivity|]. apply R. apply (inline_ends E h path ii _ e d HE Hd); [lia|exact HU1|exact Hs].
  - apply (ends_ok _ _ _ false); [rewrite HT; cbn [rbind]; change FileExtentInline with 0; f_equal; lia|]. apply R. unfold disk_extent. apply (ends_ok _ _ _ n _ Hn). apply (ends_ok _ _ _ 0 _ Hnr). cbn [Z.eqb].
    specialize (HU3 _ n eq_refl). pose proof (at64_range _ _ _ Hn) as Hn0. apply (ends_ok _ _ _ (zeros n)); [unfold make_bytes; replace ((0 <=? n) && (n <=? 2^48)) with true by lia; reflexivity|].
    apply ends_bind; [apply ends_sys; exact HE|auto with ends].
  - apply (ends_ok _ _ _ false); [rewrite HT; cbn [rbind]; change FileExtentInline with 0; f_equal; lia|]. apply R. unfold disk_extent. apply (ends_ok _ _ _ n _ Hn). apply (ends_ok _ _ _ nr _ Hnr). replace (nr =? 0) with false by lia.
    apply (ends_ok _ _ _ (id, phys) _ Hph). apply (ends_ok _ _ _ o _ Hof). pose proof (at64_range _ _ _ Hn) as Hn0. apply (copy_ends E dev D _ _ _ _ _ HE HD); lia.
Qed.
Lemma file_ends cfuel E dev D q clobber o i path : no_faults E -> reads_from D dev -> 2^64 < Z.of_nat cfuel -> file_legible q o i -> ends (recoverFile cfuel E dev q clobber o i path).
Proof.
  intros HE HD Hcf ((xs & HX & HU) & Hend & Hi). unfold recoverFile. apply ends_bind; [apply ends_sys; exact HE|]. intros k. destruct (is_some k && negb clobber); [apply ends_ret|].
  assert (G : exists x ii, q_inode q o i = Ok x /\ (match x with Some d => s <- InodeItem_Size d ;; Ok (Some s) | None => Ok None end) = Ok ii /\ match ii with Some s => 0 <= s < 2^63 | None => True end).
  { destruct Hi as [Hi|(it & s & Hi & Hs & Hs63)]; [exists None, None; auto|]. exists (Some it), (Some s). split; [exact Hi|]. split; [rewrite Hs; reflexivity|]. pose proof (at64_range _ _ _ Hs). lia. }
  destruct G as (x & ii & G1 & G2 & G3). apply (ends_ok _ _ _ x _ G1). apply (ends_ok _ _ _ ii _ G2). apply ends_bind; [apply ends_sys; exact HE|]. intros [h|]; [|apply ends_ret]. cbv zeta. rewrite Hend.
  assert (R : ends (f <~ extents_loop cfuel E dev q h path ii (st_items (q_extents q o i)) (Ok tt) ;; match f with Returned ok => ret ok | Go_on => match ii with Some size => r <~ FTruncate E h path (i64 size) ;; ret (is_some r) | None => ret true end end)).
  { apply ends_bind; [exact (extents_end cfuel E dev D q h path ii HE HD Hcf G3 _ _ HX HU)|]. intros [|ok]; [|apply ends_ret]. destruct ii; [|apply ends_ret]. apply ends_bind; [apply ends_sys; exact HE|auto with ends]. }
  destruct (st_items (q_extents q o i)) as [|y l]; [|exact R]. apply (ends_ok _ _ _ tt); [reflexivity|]. apply ends_bind; [destruct ii; [apply ends_sys; exact HE|apply ends_ret]|auto with ends].
Qed.
Lemma link_ends E dev q clobber o i path : no_faults E -> link_legible q o i -> ends (recoverSymlink E dev q clobber o i path).
Proof.
  intros HE HL. unfold recoverSymlink. apply ends_bind; [apply ends_sys; exact HE|]. intros k. destruct (is_some k && negb clobber); [apply ends_ret|].
  apply ends_bind; [destruct (is_some k); [apply ends_sys; exact HE|apply ends_ret]|]. intros _. destruct HL as [HL|(e & ty & HL & HT & HC)]; [apply (ends_ok _ _ _ None _ HL), ends_ret|]. apply (ends_ok _ _ _ (Some e) _ HL).
  apply ends_bind; [|intros [t|]; [apply ends_bind; [apply ends_sys; exact HE|auto with ends]|apply ends_ret]]. unfold link_target, FileExtentItem_IsInline.
  destruct HC as [(-> & d & Hd)|[(HT0 & Hnr)|(HT0 & nr & n & eo & [id phys] & Hnr & Hn & Heo & Hp & Hn48)]].
  - apply (ends_ok _ _ _ true); [rewrite HT; reflexivity|]. apply (ends_ok _ _ _ d _ Hd). apply ends_ret.
  - apply (ends_ok _ _ _ false); [rewrite HT; cbn [rbind]; change FileExtentInline with 0; f_equal; lia|]. apply (ends_ok _ _ _ 0 _ Hnr). apply ends_ret.
  - apply (ends_ok _ _ _ false); [rewrite HT; cbn [rbind]; change FileExtentInline with 0; f_equal; lia|]. apply (ends_ok _ _ _ nr _ Hnr). destruct (0 <? nr); [|apply ends_ret].
    apply (ends_ok _ _ _ (id, phys) _ Hp). apply (ends_ok _ _ _ eo _ Heo). apply (ends_ok _ _ _ n _ Hn). pose proof (at64_range _ _ _ Hn) as Hn0.
    apply (ends_ok _ _ _ (zeros n)); [unfold make_bytes; replace ((0 <=? n) && (n <=? 2^48)) with true by lia; reflexivity|]. apply ends_bind; [apply ends_read|]. intros [d [er|]]; apply ends_ret.
Qed.
Lemma shows_legible q D o i c : file_shows q D o i c -> file_legible q o i.
Proof.
  intros (xs & it & H1 & H2 & H3 & H4 & H5 & H6 & _). split; [exists xs; split; [exact H1|]|split; [exact H3|right; exists it, (zlen c); auto]].
  eapply Forall_impl; [|exact H2]. intros x [A B]. split; [exact A|]. intros off n ->. exact B.
Qed.
Lemma shows_legible_link q D o i t : link_shows q D o i t -> link_legible q o i.
Proof.
  intros (e & H1 & [(HT & Hd)|(ty & n & nr & id & phys & eo & HT & HT0 & Hn & Hnr & Hnz & Hp & Ho & Hl & _)] & H3); right.
  - exists e, 0. split; [exact H1|]. split; [exact HT|]. left. split; [reflexivity|]. exists t. exact Hd.
  - exists e, ty. split; [exact H1|]. split; [exact HT|]. right. right. split; [exact HT0|]. exists nr, n, eo, (id, phys). repeat (split; [assumption|]). unfold path_arg in H3. lia.
Qed.
Lemma shows_unique q D o i c c' : file_shows q D o i c -> file_shows q D o i c' -> c = c'.
Proof.
  intros (xs & it & H1 & H2 & H3 & H4 & H5 & H6 & H7) (xs' & it' & K1 & K2 & K3 & K4 & K5 & K6 & K7).
  assert (xs = xs').
  { clear -H1 K1. revert xs' K1. induction H1 as [|[k e] x l xs Hx HX IH]; intros xs' K1; inversion K1 as [|? x' ? xs2 Kx K2]; subst; [reflexivity|]. f_equal; [|exact (IH _ K2)]. clear -Hx Kx. unfold is_extent in *.
    destruct Hx as [(d & HT & Hd & ->)|[(t & n & HT & HT0 & Hn & Hnr & ->)|(t & n & nr & id & phys & o & HT & HT0 & Hn & Hnr & Hnz & Hph & Hof & ->)]];
    destruct Kx as [(d' & KT & Kd & ->)|[(t' & n' & KT & KT0 & Kn & Knr & ->)|(t' & n' & nr' & id' & phys' & o' & KT & KT0 & Kn & Knr & Knz & Kph & Kof & ->)]]; try congruence.
    all: (assert (n' = n) by congruence; assert (nr' = nr) by congruence; subst; assert (phys' = phys) by congruence; assert (o' = o) by congruence; subst; reflexivity). }
  subst xs'. assert (it' = it) by congruence. subst it'. assert (zlen c = zlen c') by congruence. apply byte_ext; [assumption|]. intros j Hj. rewrite H7, K7 by lia. reflexivity.
Qed.
Lemma link_unique q D o i t t' : link_shows q D o i t -> link_shows q D o i t' -> t = t'.
Proof.
  intros (e & H1 & HT & _) (e' & K1 & KT & _). assert (e' = e) by congruence. subst e'.
  destruct HT as [(HT & Hd)|(ty & n & nr & id & phys & eo & HT & HT0 & Hn & Hnr & Hnz & Hp & Ho & Hl & ->)], KT as [(KT & Kd)|(ty' & n' & nr' & id' & phys' & eo' & KT & KT0 & Kn & Knr & Knz & Kp & Ko & Kl & ->)]; try congruence.
  all: (assert (n' = n) by congruence; assert (nr' = nr) by congruence; subst; assert (phys' = phys) by congruence; assert (eo' = eo) by congruence; subst; reflexivity).
Qed.
Lemma shown_listed q D o i c : file_shows q D o i c -> ask_file (listed q D) o i c.
Proof. intros H. split; [exact (shows_legible _ _ _ _ _ H)|]. intros c'. exact (shows_unique _ _ _ _ _ _ H). Qed.
Lemma shown_listed_link q D o i t : link_shows q D o i t -> ask_link (listed q D) o i t.
Proof. intros H. split; [exact (shows_legible_link _ _ _ _ _ H)|]. intros t'. exact (link_unique _ _ _ _ _ _ H). Qed.

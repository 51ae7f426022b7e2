(** C48: the content of recovered files. *)
From Verif Require Import Go GoProofs Layout KeyFmt Bolt Store Fs Recover RecoverProofs SpecFs SpecContent PathProofs PropsRecoverPaths FsProofs PropsRecoverSafe PropsRecoverDfs.
From Coq Require Import ZifyBool ZifyNat ZifyN.
Ltac Zify.zify_post_hook ::= Z.div_mod_to_equations.

(** ** bytes of patched and resized strings *)
Lemma byte_at_app a b i : 0 <= i -> byte_at (a ++ b) i = if i <? zlen a then byte_at a i else byte_at b (i - zlen a).
Proof.
  intros Hi. unfold byte_at, zlen. destruct (i <? Z.of_nat (length a)) eqn:C.
  - apply app_nth1. lia.
  - rewrite app_nth2 by lia. f_equal. lia.
Qed.
Lemma byte_at_zeros n i : byte_at (zeros n) i = x00.
Proof. unfold byte_at, zeros. destruct (Nat.lt_ge_cases (Z.to_nat i) (Z.to_nat n)); [apply nth_repeat|apply nth_overflow; rewrite repeat_length; lia]. Qed.
Lemma byte_at_over s i : zlen s <= i -> byte_at s i = x00.
Proof. intros H. unfold byte_at. apply nth_overflow. unfold zlen in H. lia. Qed.
Lemma byte_at_firstn s n i : 0 <= i < n -> byte_at (firstn (Z.to_nat n) s) i = byte_at s i.
Proof. intros H. unfold byte_at. apply nth_firstn'. lia. Qed.
Lemma byte_at_skipn s n i : 0 <= n -> 0 <= i -> byte_at (skipn (Z.to_nat n) s) i = byte_at s (n + i).
Proof. intros Hn Hi. unfold byte_at. rewrite nth_skipn'. f_equal. lia. Qed.
Lemma byte_at_extended c n i : 0 <= i -> byte_at (c ++ zeros n) i = byte_at c i.
Proof. intros Hi. rewrite byte_at_app by exact Hi. destruct (i <? zlen c) eqn:C; [reflexivity|]. rewrite byte_at_zeros, byte_at_over by lia. reflexivity. Qed.
Lemma zlen_zeros n : 0 <= n -> zlen (zeros n) = n.
Proof. intros H. unfold zeros. rewrite zlen_repeat. lia. Qed.
Lemma zlen_firstn_zeros c n : 0 <= n -> zlen (firstn (Z.to_nat n) (c ++ zeros (n - zlen c))) = n.
Proof.
  intros H. apply zlen_firstn. rewrite zlen_app. pose proof (zlen_nonneg c). destruct (Z.leb_spec 0 (n - zlen c)); [rewrite zlen_zeros by lia; lia|].
  pose proof (zlen_nonneg (zeros (n - zlen c))). lia.
Qed.
Lemma byte_at_patch c data off i : 0 <= off -> 0 <= i ->
  byte_at (patch c data off) i = if (off <=? i) && (i <? off + zlen data) then byte_at data (i - off) else byte_at c i.
Proof.
  intros Ho Hi. unfold patch. rewrite byte_at_app by exact Hi. rewrite zlen_firstn_zeros by exact Ho. pose proof (zlen_nonneg data) as Hd. destruct (i <? off) eqn:C1.
  - replace ((off <=? i) && _) with false by lia. rewrite byte_at_firstn by lia. apply byte_at_extended. exact Hi.
  - rewrite byte_at_app by lia. destruct (i - off <? zlen data) eqn:C2.
    + replace ((off <=? i) && _) with true by lia. reflexivity.
    + replace ((off <=? i) && _) with false by lia. rewrite byte_at_skipn by lia. f_equal. lia.
Qed.
Lemma byte_at_resize c n i : 0 <= i < n -> byte_at (resize c n) i = byte_at c i.
Proof. intros Hi. unfold resize. rewrite byte_at_firstn by lia. apply byte_at_extended. lia. Qed.
Lemma zlen_resize c n : 0 <= n -> zlen (resize c n) = n.
Proof. apply zlen_firstn_zeros. Qed.

(** ** logs *)
Lemma logs_weaken (P Q : event -> Prop) w w' : (forall e, P e -> Q e) -> logs P w w' -> logs Q w w'.
Proof. intros H (evs & E1 & F). exists evs. split; [exact E1|]. eapply Forall_impl; eauto. Qed.
Definition any_ev (e : event) : Prop := True.
Lemma logs_split P a b c : logs any_ev a b -> logs any_ev b c -> logs P a c -> logs P a b /\ logs P b c.
Proof.
  intros (e1 & E1 & _) (e2 & E2 & _) (e & E3 & F). rewrite E2, E1, app_assoc in E3. apply app_inv_tail in E3. subst e. apply Forall_app in F as [F2 F1].
  split; [exists e1|exists e2]; auto.
Qed.
Lemma logs_here P w w' e : w_log w' = e :: w_log w -> logs P w w' -> P e.
Proof. intros H (evs & E1 & F). rewrite H in E1. change (e :: w_log w) with ([e] ++ w_log w) in E1. apply app_inv_tail in E1. subst evs. inversion F. assumption. Qed.
Lemma any_syscall E k s A (eff : fs -> fs * option A) part : keeps (logs any_ev) (syscall E k s eff part).
Proof. apply logs_syscall; intros; exact Logic.I. Qed.
Lemma any_read dev n o : keeps (logs any_ev) (devRead dev n o).
Proof. apply logs_read; intros; exact Logic.I. Qed.
Lemma any_copy E dev h path : forall fuel n src off c, keeps (logs any_ev) (copy_loop fuel E dev h path n src off c).
Proof.
  induction fuel as [|fuel IH]; intros n src off c; cbn [copy_loop]; [apply keeps_timeout, logs_refl|]. cbv zeta. destruct (c <? n); [|apply keeps_ret, logs_refl].
  apply keeps_bind; [apply logs_trans|apply any_read|]. intros [d err]. apply keeps_bind; [apply logs_trans| |].
  - destruct (0 <? zlen d); [|apply keeps_ret, logs_refl]. apply keeps_bind; [apply logs_trans|apply any_syscall|intros; apply keeps_ret, logs_refl].
  - intros ok. destruct ok; cbn [negb]; [|apply keeps_ret, logs_refl]. destruct err as [[]|]; [destruct (_ <? n); apply keeps_ret, logs_refl|apply keeps_ret, logs_refl|apply IH].
Qed.
Lemma bind_ret_inv {A B} (m : M A) (f : A -> M B) w w' b : bind m f w = (w', Ret b) -> exists w1 a, m w = (w1, Ret a) /\ f a w1 = (w', Ret b).
Proof. unfold bind. destruct (m w) as [w1 [a| | |]] eqn:EM; try discriminate. intros H. exists w1, a. auto. Qed.
Lemma lift_ret_inv {A} (r : Res A) w w' a : lift r w = (w', Ret a) -> r = Ok a /\ w' = w.
Proof. unfold lift. destruct r; try discriminate. intros H. injection H as <- <-. auto. Qed.
Lemma ret_inv {A} (x a : A) w w' : ret x w = (w', Ret a) -> x = a /\ w' = w.
Proof. unfold ret. intros H. injection H as <- <-. auto. Qed.

(** ** effect of the file calls *)
(** [p] holds content [c] *)
Definition holds (w : world) (p : cpath) (c : list byte) : Prop := look (w_fs w) p = Some (NFile c).
Definition same_but (p : cpath) (w w' : world) : Prop := forall p', p' <> p -> look (w_fs w') p' = look (w_fs w) p'.
Lemma same_but_refl p w : same_but p w w. Proof. intros p' _. reflexivity. Qed.
Lemma same_but_trans p a b c : same_but p a b -> same_but p b c -> same_but p a c.
Proof. intros H1 H2 p' Hp. rewrite H2, H1; auto. Qed.
Lemma look_put_other F p n p' : p' <> p -> p <> [] -> look (put_node F p n) p' = look F p'.
Proof. intros H Hp. rewrite look_put by exact Hp. destruct (cpath_dec p p'); [congruence|reflexivity]. Qed.
Lemma look_put_same F p n : p <> [] -> look (put_node F p n) p = Some n.
Proof. intros Hp. rewrite look_put by exact Hp. destruct (cpath_dec p p); [reflexivity|congruence]. Qed.
Lemma file_not_root F p c : look F p = Some (NFile c) -> p <> [].
Proof. intros H ->. discriminate. Qed.
Lemma write_effect E h s data off w w' c : holds w h c -> WriteAt E h s data off w = (w', Ret (Some tt)) ->
  0 <= off /\ off + zlen data <= Z.max off (2^63 - 1) /\ same_but h w w' /\
  exists c', holds w' h c' /\ forall i, 0 <= i -> byte_at c' i = if (off <=? i) && (i <? off + zlen data) then byte_at data (i - off) else byte_at c i.
Proof.
  intros Hh H. unfold WriteAt, syscall in H. destruct (e_faults E (w_ops w) OWrite); [|discriminate|discriminate]. unfold sys_write in H.
  destruct (off <? 0) eqn:C1; [discriminate|]. destruct data as [|x data].
  - cbn [is_nil] in H. injection H as <-. change (zlen (@nil byte)) with 0. split; [lia|]. split; [lia|]. split; [intros p' _; reflexivity|]. exists c. split; [exact Hh|].
    intros i Hi. replace ((off <=? i) && _) with false by lia. reflexivity.
  - cbn [is_nil] in H. destruct (2^63 - 1 <? off + zlen (x :: data)) eqn:C2; [discriminate|]. unfold holds in Hh. rewrite Hh in H. injection H as <-.
    pose proof (file_not_root _ _ _ Hh) as Hr. split; [lia|]. split; [lia|]. split; [intros p' Hp; apply look_put_other; assumption|].
    exists (patch c (x :: data) off). split; [apply look_put_same; exact Hr|]. intros i Hi. apply byte_at_patch; lia.
Qed.
Lemma trunc_effect E h s n w w' c : holds w h c -> FTruncate E h s n w = (w', Ret (Some tt)) -> 0 <= n /\ same_but h w w' /\ holds w' h (resize c n).
Proof.
  intros Hh H. unfold FTruncate, syscall in H. destruct (e_faults E (w_ops w) OTrunc); [|discriminate|discriminate]. unfold sys_trunc in H.
  destruct (n <? 0) eqn:C1; [discriminate|]. unfold holds in Hh. rewrite Hh in H. injection H as <-. pose proof (file_not_root _ _ _ Hh) as Hr.
  split; [lia|]. split; [intros p' Hp; apply look_put_other; assumption|apply look_put_same; exact Hr].
Qed.
Lemma open_effect E s w w' h : OpenFile E s w = (w', Ret (Some h)) ->
  resolve (w_fs w) (e_cwd E) true s = Some h /\ same_but h w w' /\ holds w' h [].
Proof.
  intros H. unfold OpenFile, syscall in H. destruct (e_faults E (w_ops w) OOpen); [|discriminate|discriminate]. unfold sys_open in H.
  destruct (resolve (w_fs w) (e_cwd E) true s) as [p|] eqn:ER; [|discriminate].
  assert (G : look (w_fs w) p <> Some NDir -> forall w1, w1 = mkWorld (put_node (w_fs w) p (NFile [])) (S (w_ops w)) (EvOp OOpen s true :: w_log w) -> same_but p w w1 /\ holds w1 p []).
  { intros HN w1 ->. pose proof (look_missing _ _ HN) as Hr. split; [intros p' Hp; apply look_put_other; assumption|apply look_put_same; exact Hr]. }
  destruct (look (w_fs w) p) as [[c| |t]|] eqn:EL; try discriminate; cbn [is_some] in H; injection H as H1 H2; subst p; split; try reflexivity; apply G; try discriminate; symmetry; exact H1.
Qed.
(** ** copying from the device *)
Lemma copy_effect E dev D h path n src off : reads_from D dev -> 0 <= n < 2^64 -> 0 <= src < 2^64 -> 0 <= off < 2^64 ->
  forall fuel copied w w' c, 0 <= copied <= n -> (copied = 0 \/ (off + copied < 2^63 /\ src + copied < 2^64)) -> holds w h c ->
  copy_loop fuel E dev h path n src off copied w = (w', Ret Go_on) -> logs read_ok w w' ->
  same_but h w w' /\ exists c', holds w' h c' /\ forall i, 0 <= i -> byte_at c' i = if (off + copied <=? i) && (i <? off + n) then byte_at D (src + (i - off)) else byte_at c i.
Proof.
  intros HD Hn Hs Ho. induction fuel as [|fuel IH]; intros copied w w' c Hc Hinv Hh H HL; [discriminate|]. cbn [copy_loop] in H. cbv zeta in H.
  destruct (copied <? n) eqn:C0.
  2: { apply ret_inv in H as [_ ->]. split; [apply same_but_refl|]. exists c. split; [exact Hh|]. intros i Hi. replace ((off + copied <=? i) && _) with false by lia. reflexivity. }
  set (m := if chunkSize <? u64 (n - copied) then chunkSize else u64 (n - copied)) in H. assert (Hu : u64 (n - copied) = n - copied) by (apply u64_small; unfold is_u64; lia).
  assert (Hm : 0 < m <= n - copied /\ m <= chunkSize) by (unfold m, chunkSize; rewrite Hu; destruct (1024 * 1024 <? n - copied) eqn:C; lia). clearbody m.
  apply bind_ret_inv in H as (w1 & [d err] & HR & H). pose proof (any_read _ _ _ _ _ _ HR) as L1.
  set (so := i64 (u64 (src + copied))) in *. apply bind_ret_inv in H as (w2 & ok & HW & H).
  assert (L2 : logs any_ev w1 w2). { destruct (0 <? zlen d); [|apply ret_inv in HW as [_ ->]; apply logs_refl]. apply bind_ret_inv in HW as (w3 & r & HX & HY). apply ret_inv in HY as [_ ->]. exact (any_syscall _ _ _ _ _ _ _ _ _ HX). }
  assert (L3 : logs any_ev w2 w'). { destruct ok; cbn [negb] in H; [|apply ret_inv in H as [H _]; discriminate]. destruct err as [[]|]; [|apply ret_inv in H as [_ ->]; apply logs_refl|exact (any_copy _ _ _ _ _ _ _ _ _ _ _ _ H)]. destruct (u64 (copied + zlen d) <? n); [apply ret_inv in H as [H _]; discriminate|apply ret_inv in H as [_ ->]; apply logs_refl]. }
  destruct (logs_split read_ok w w1 w' L1 (logs_trans _ _ _ _ L2 L3) HL) as [HL1 HL1']. destruct (logs_split read_ok w1 w2 w' L2 L3 HL1') as [_ HL3].
  unfold devRead in HR. specialize (HD m so). destruct (dev m so) as [d0 err0]. injection HR as <- -> ->. destruct HD as [HN HP].
  assert (Herr : err <> Some EOther). { intros ->. change (read_ok (EvRead so m (zlen d) (Some EOther))); eapply logs_here; [|exact HL1]; reflexivity. }
  assert (Hso : so = src + copied).
  { assert (Hso0 : 0 <= so) by (destruct (Z.ltb_spec so 0) as [C|C]; [exfalso; exact (Herr (HN C))|exact C]).
    assert (Hsc : src + copied < 2^64) by (destruct Hinv as [->|[_ Hx]]; lia). unfold so. rewrite u64_small by (unfold is_u64; lia).
    unfold so in Hso0. rewrite u64_small in Hso0 by (unfold is_u64; lia). unfold i64 in *. lia. }
  assert (Hso0 : 0 <= so) by lia. assert (Hsb : so < 2^63) by (unfold so; apply i64_range). destruct (HP Hso0 ltac:(lia)) as (Hdl & Hdd & Hdf). pose proof (zlen_nonneg d) as Hd0.
  assert (Hbyte : forall j, 0 <= j < zlen d -> byte_at d j = byte_at D (so + j)).
  { intros j Hj. rewrite Hdd. replace (length d) with (Z.to_nat (zlen d)) by (unfold zlen; lia). rewrite byte_at_firstn by exact Hj. apply byte_at_skipn; lia. }
  destruct ok; cbn [negb] in H; [|apply ret_inv in H as [H _]; discriminate].
  assert (Hcu : u64 (copied + zlen d) = copied + zlen d) by (apply u64_small; unfold is_u64; lia). rewrite Hcu in H.
  assert (Hd1 : 0 < zlen d). { destruct err as [[]|]; [|congruence|rewrite (Hdf eq_refl); lia]. destruct (copied + zlen d <? n) eqn:C; [apply ret_inv in H as [H _]; discriminate|lia]. }
  replace (0 <? zlen d) with true in HW by lia. apply bind_ret_inv in HW as (w3 & r & HX & HY). apply ret_inv in HY as [HY ->]. destruct r as [[]|]; [|discriminate].
  apply (write_effect _ _ _ _ _ _ _ c) in HX; [|exact Hh]. destruct HX as (Hw0 & Hw1 & Hsame & c1 & Hh1 & Hc1).
  assert (Hoff : i64 (u64 (off + copied)) = off + copied).
  { assert (Hoc : off + copied < 2^64) by (destruct Hinv as [->|[Hx _]]; lia). rewrite u64_small in * by (unfold is_u64; lia). unfold i64 in *. lia. }
  rewrite Hoff in *. assert (Hw2 : off + copied + zlen d < 2^63) by lia.
  assert (Hdone : copied + zlen d = n -> w' = w3 -> same_but h w w' /\ (exists c', holds w' h c' /\ forall i, 0 <= i -> byte_at c' i = if (off + copied <=? i) && (i <? off + n) then byte_at D (src + (i - off)) else byte_at c i)).
  { intros Hcn ->. split; [exact Hsame|]. exists c1. split; [exact Hh1|]. intros i Hi. rewrite Hc1 by exact Hi. replace (off + copied + zlen d) with (off + n) by lia.
    destruct ((off + copied <=? i) && (i <? off + n)) eqn:CC; [|reflexivity]. rewrite Hbyte by lia. f_equal. lia. }
  destruct err as [[]|]; [|congruence|].
  - destruct (copied + zlen d <? n) eqn:C; [apply ret_inv in H as [H _]; discriminate|]. apply ret_inv in H as [_ ->]. apply Hdone; [lia|reflexivity].
  - destruct (IH (copied + zlen d) w3 w' c1 ltac:(lia) ltac:(right; unfold chunkSize in Hm; lia) Hh1 H HL3) as (Hsame' & c' & Hh' & Hc').
    split; [exact (same_but_trans _ _ _ _ Hsame Hsame')|]. exists c'. split; [exact Hh'|]. intros i Hi. rewrite Hc' by exact Hi. rewrite Hc1 by exact Hi.
    destruct ((off + (copied + zlen d) <=? i) && (i <? off + n)) eqn:C1; destruct ((off + copied <=? i) && (i <? off + n)) eqn:C2; try reflexivity; try lia.
    + destruct ((off + copied <=? i) && (i <? off + copied + zlen d)) eqn:C3; [|lia]. rewrite Hbyte by lia. f_equal. lia.
    + destruct ((off + copied <=? i) && (i <? off + copied + zlen d)) eqn:C3; [lia|reflexivity].
Qed.
(** ** the extents *)
Lemma file_byte_snoc D xs x i : file_byte D (xs ++ [x]) i = if covers x i then ext_byte D x i else file_byte D xs i.
Proof. unfold file_byte. rewrite rev_unit. cbn [List.find]. destruct (covers x i); reflexivity. Qed.
Lemma ik_offset_range k : 0 <= KOffset (ik_Key k) < 2^64.
Proof.
  unfold ik_Key. cbn [KOffset]. unfold ik_Offset. match goal with |- context [be_decode ?x] => set (s := x) end. pose proof (be_decode_range s) as H.
  assert (zlen s <= 8) by (unfold s, sub_bytes, zlen; rewrite firstn_length; lia).
  assert (256 ^ zlen s <= 256 ^ 8) by (apply Z.pow_le_mono_r; lia). change (256 ^ 8) with (2^64) in *. lia.
Qed.
Definition within (ii : option Z) (i : Z) : Prop := match ii with Some s => i < s | None => True end.
Lemma inline_effect E h path ii off e d w w' c D xs : FileExtentItem_Data e = Ok d -> 0 <= off < 2^64 ->
  match ii with Some s => 0 <= s < 2^63 | None => True end -> zlen d < 2^62 ->
  holds w h c -> (forall i, 0 <= i -> within ii i -> byte_at c i = file_byte D xs i) ->
  inline_extent E h path ii off e w = (w', Ret Go_on) ->
  same_but h w w' /\ exists c', holds w' h c' /\ forall i, 0 <= i -> within ii i -> byte_at c' i = file_byte D (xs ++ [Inline off d]) i.
Proof.
  intros Ed Ho Hs Hd62 Hh Hc H. unfold inline_extent in H. rewrite Ed in H. apply bind_ret_inv in H as (w1 & d1 & HX & H). apply lift_ret_inv in HX as [HX ->]. injection HX as <-. cbv zeta in H.
  set (limit := match ii with Some fs => if i64 fs <? i64 (i64 off + zlen d) then i64 (u64 (fs - off)) else zlen d | None => zlen d end) in H.
  pose proof (zlen_nonneg d) as Hd0.
  assert (Hcov : forall i, 0 <= i -> covers (Inline off d) i = (off <=? i) && (i <? off + zlen d)) by (intros; reflexivity).
  assert (Hlim : off < 2^63 -> limit = zlen d \/ (exists s, ii = Some s /\ s < off + zlen d /\ limit = s - off)).
  { intros H63. unfold limit. destruct ii as [s|]; cbv beta iota in Hs; [|left; reflexivity]. rewrite (i64_small s) by exact Hs. rewrite (i64_small off) by lia.
    destruct (s <? i64 (off + zlen d)) eqn:CL; [|left; reflexivity]. right. exists s. split; [reflexivity|]. split.
    - destruct (Z.ltb_spec (off + zlen d) (2^63)); [rewrite i64_small in CL by lia; lia|lia].
    - unfold i64, u64. lia. }
  destruct (0 <? limit) eqn:CL.
  - apply bind_ret_inv in H as (w1 & dd & HX & H). apply lift_ret_inv in HX as [HX ->]. apply bind_ret_inv in H as (w1 & r & HW & H). apply ret_inv in H as [Hr ->].
    destruct r as [[]|]; [|discriminate]. assert (Hl : limit <= zlen d /\ zlen (sbytes dd) = limit /\ forall i, 0 <= i < limit -> byte_at (sbytes dd) i = byte_at d i).
    { unfold go_to in HX. pose proof (go_slice_inv _ _ _ _ HX) as HI. destruct HI as (HI1 & HI2 & HI3). rewrite scap_sl in HI2. split; [lia|].
      assert (HB : sbytes dd = firstn (Z.to_nat limit) d). { rewrite (go_slice_bytes (sl d) 0 limit dd (sl_wf d) HI2 HX). rewrite sbytes_sl. change (Z.to_nat 0) with 0%nat. cbn [skipn]. f_equal. lia. }
      rewrite HB. split; [apply zlen_firstn; lia|intros; apply byte_at_firstn; lia]. }
    destruct Hl as (Hl1 & Hl2 & Hl3). apply (write_effect _ _ _ _ _ _ _ c) in HW; [|exact Hh]. destruct HW as (Hw0 & Hw1 & Hsame & c1 & Hh1 & Hc1). rewrite Hl2 in *.
    assert (H63 : off < 2^63) by (unfold i64 in Hw0; lia). rewrite (i64_small off) in * by lia. split; [exact Hsame|]. exists c1. split; [exact Hh1|]. intros i Hi HWi.
    rewrite Hc1 by exact Hi. rewrite file_byte_snoc, Hcov by exact Hi. cbn [ext_byte].
    destruct ((off <=? i) && (i <? off + limit)) eqn:C1; destruct ((off <=? i) && (i <? off + zlen d)) eqn:C2; try lia.
    + apply Hl3. lia.
    + destruct (Hlim H63) as [HL|(s & -> & HL1 & HL2)]; [lia|]. cbn [within] in HWi. lia.
    + apply Hc; assumption.
  - apply ret_inv in H as [_ ->]. split; [apply same_but_refl|]. exists c. split; [exact Hh|]. intros i Hi HWi. rewrite file_byte_snoc, Hcov by exact Hi. rewrite Hc by assumption.
    destruct ((off <=? i) && (i <? off + zlen d)) eqn:C2; [|reflexivity]. exfalso. destruct (Z.ltb_spec off (2^63)) as [H63|H63].
    + destruct (Hlim H63) as [HL|(s & -> & HL1 & HL2)]; [lia|]. cbn [within] in HWi. lia.
    + destruct ii as [s|]; [cbn [within] in HWi; lia|]. unfold limit in CL. lia.
Qed.
Lemma data_len e d : FileExtentItem_Data e = Ok d -> zlen d < 2^62.
Proof.
  unfold FileExtentItem_Data. destruct (FileExtentItem_RAMBytes e) as [r| |]; cbn [rbind]; try discriminate. cbv zeta.
  set (l := if DefaultBlockSize <? i64 r then DefaultBlockSize else i64 r). assert (Hl : l <= DefaultBlockSize) by (unfold l; destruct (DefaultBlockSize <? i64 r) eqn:C; lia). clearbody l.
  destruct (go_slice e _ _) as [s| |] eqn:EG; cbn [rbind]; try discriminate. intros H. injection H as <-. apply go_slice_inv in EG as (H1 & H2 & ->). unfold sbytes. cbn [s_arr s_len].
  unfold zlen. rewrite firstn_length. unfold DefaultBlockSize in *. change (2^62) with 4611686018427387904. lia.
Qed.
Lemma make_inv n z : make_bytes n = Ok z -> z = zeros n /\ 0 <= n.
Proof. unfold make_bytes. destruct ((0 <=? n) && (n <=? 2^48)) eqn:C; try discriminate. intros H. injection H as <-. split; [reflexivity|lia]. Qed.
Lemma disk_effect cfuel E dev D q h path k e x ii w w' c xs t : reads_from D dev -> is_extent q (k, e) x -> FileExtentItem_Type e = Ok t -> t <> 0 ->
  holds w h c -> (forall i, 0 <= i -> within ii i -> byte_at c i = file_byte D xs i) ->
  disk_extent cfuel E dev q h path (KOffset (ik_Key k)) e w = (w', Ret Go_on) -> logs read_ok w w' ->
  same_but h w w' /\ exists c', holds w' h c' /\ forall i, 0 <= i -> within ii i -> byte_at c' i = file_byte D (xs ++ [x]) i.
Proof.
  intros HD HX Ht Ht0 Hh Hc H HL. pose proof (ik_offset_range k) as Ho. set (off := KOffset (ik_Key k)) in *. unfold disk_extent in H.
  destruct HX as [(d & HT & _)|[(t' & n & HT & _ & Hn & Hnr & ->)|(t' & n & nr & id & phys & o & HT & _ & Hn & Hnr & Hnz & Hph & Hof & ->)]]; [congruence| |].
  - rewrite Hn, Hnr in H. apply bind_ret_inv in H as (w1 & a & HA & H). apply lift_ret_inv in HA as [HA ->]. injection HA as <-.
    apply bind_ret_inv in H as (w1 & a & HA & H). apply lift_ret_inv in HA as [HA ->]. injection HA as <-. cbn [Z.eqb] in H.
    apply bind_ret_inv in H as (w1 & z & HA & H). apply lift_ret_inv in HA as [HA ->]. apply make_inv in HA as [-> Hn0].
    apply bind_ret_inv in H as (w1 & r & HW & H). apply ret_inv in H as [Hr ->]. destruct r as [[]|]; [|discriminate].
    apply (write_effect _ _ _ _ _ _ _ c) in HW; [|exact Hh]. destruct HW as (Hw0 & Hw1 & Hsame & c1 & Hh1 & Hc1). rewrite zlen_zeros in * by exact Hn0.
    assert (H63 : off < 2^63) by (unfold i64 in Hw0; lia). rewrite (i64_small off) in * by lia. split; [exact Hsame|]. exists c1. split; [exact Hh1|]. intros i Hi HWi.
    rewrite Hc1 by exact Hi. rewrite file_byte_snoc. unfold covers. cbn [ext_off ext_len ext_byte]. fold off. destruct ((off <=? i) && (i <? off + n)); [apply byte_at_zeros|apply Hc; assumption].
  - pose proof (at64_range _ _ _ Hn) as Hn0. rewrite Hn, Hnr in H. apply bind_ret_inv in H as (w1 & a & HA & H). apply lift_ret_inv in HA as [HA ->]. injection HA as <-.
    apply bind_ret_inv in H as (w1 & a & HA & H). apply lift_ret_inv in HA as [HA ->]. injection HA as <-. replace (nr =? 0) with false in H by lia.
    rewrite Hph in H. apply bind_ret_inv in H as (w1 & a & HA & H). apply lift_ret_inv in HA as [HA ->]. injection HA as <-.
    rewrite Hof in H. apply bind_ret_inv in H as (w1 & a & HA & H). apply lift_ret_inv in HA as [HA ->]. injection HA as <-.
    pose proof (u64_range (phys + o)) as Hsrc. unfold is_u64 in Hsrc. change (u64 (phys + o)) with ((phys + o) mod 2^64) in *.
    apply (copy_effect E dev D h path n ((phys + o) mod 2^64) off HD ltac:(lia) ltac:(lia) Ho cfuel 0 w w' c ltac:(lia) ltac:(left; reflexivity) Hh) in H; [|exact HL].
    destruct H as (Hsame & c1 & Hh1 & Hc1). split; [exact Hsame|]. exists c1. split; [exact Hh1|]. intros i Hi HWi. rewrite Hc1 by exact Hi. rewrite file_byte_snoc. unfold covers. cbn [ext_off ext_len ext_byte]. fold off.
    rewrite Z.add_0_r. destruct ((off <=? i) && (i <? off + n)); [reflexivity|apply Hc; assumption].
Qed.
Lemma any_lift {A} (r : Res A) : keeps (logs any_ev) (lift r).
Proof. apply keeps_lift, logs_refl. Qed.
Lemma any_inline E h path ii off e : keeps (logs any_ev) (inline_extent E h path ii off e).
Proof.
  unfold inline_extent. apply keeps_bind; [apply logs_trans|apply any_lift|]. intros d. cbv zeta. match goal with |- context [if ?b then _ else ret Go_on] => destruct b end; [|apply keeps_ret, logs_refl].
  apply keeps_bind; [apply logs_trans|apply any_lift|]. intros s. apply keeps_bind; [apply logs_trans|apply any_syscall|]. intros r. apply keeps_ret, logs_refl.
Qed.
Lemma any_disk cfuel E dev q h path off e : keeps (logs any_ev) (disk_extent cfuel E dev q h path off e).
Proof.
  unfold disk_extent. apply keeps_bind; [apply logs_trans|apply any_lift|]. intros n. apply keeps_bind; [apply logs_trans|apply any_lift|]. intros nr. destruct (nr =? 0).
  - apply keeps_bind; [apply logs_trans|apply any_lift|]. intros z. apply keeps_bind; [apply logs_trans|apply any_syscall|]. intros r. apply keeps_ret, logs_refl.
  - apply keeps_bind; [apply logs_trans|apply any_lift|]. intros [a b]. apply keeps_bind; [apply logs_trans|apply any_lift|]. intros o. apply any_copy.
Qed.
Lemma any_extents cfuel E dev q h path ii fin : forall l, keeps (logs any_ev) (extents_loop cfuel E dev q h path ii l fin).
Proof.
  induction l as [|[k e] l IH]; cbn [extents_loop]; [apply keeps_bind; [apply logs_trans|apply any_lift|intros; apply keeps_ret, logs_refl]|]. cbv zeta.
  apply keeps_bind; [apply logs_trans|apply any_lift|]. intros inl. apply keeps_bind; [apply logs_trans|destruct inl; [apply any_inline|apply any_disk]|]. intros [|ok]; [apply IH|apply keeps_ret, logs_refl].
Qed.
Lemma extents_effect cfuel E dev D q h path ii fin : reads_from D dev -> match ii with Some s => 0 <= s < 2^63 | None => True end ->
  forall l xs, Forall2 (is_extent q) l xs -> forall xs0 w w' c, holds w h c -> (forall i, 0 <= i -> within ii i -> byte_at c i = file_byte D xs0 i) ->
  extents_loop cfuel E dev q h path ii l fin w = (w', Ret Go_on) -> logs read_ok w w' ->
  same_but h w w' /\ exists c', holds w' h c' /\ forall i, 0 <= i -> within ii i -> byte_at c' i = file_byte D (xs0 ++ xs) i.
Proof.
  intros HD Hii l xs HX. induction HX as [|[k e] x l xs Hx HX IH]; intros xs0 w w' c Hh Hc H HL; cbn [extents_loop] in H.
  - apply bind_ret_inv in H as (w1 & a & HA & H). apply lift_ret_inv in HA as [HA ->]. apply ret_inv in H as [_ ->]. rewrite app_nil_r. split; [apply same_but_refl|]. exists c. auto.
  - cbv zeta in H. apply bind_ret_inv in H as (w0 & inl & HA & H). apply lift_ret_inv in HA as [HA ->]. apply bind_ret_inv in H as (w1 & f & HF & H). destruct f as [|ok]; [|apply ret_inv in H as [H _]; discriminate].
    assert (L1 : logs any_ev w w1) by (destruct inl; [exact (any_inline _ _ _ _ _ _ _ _ _ HF)|exact (any_disk _ _ _ _ _ _ _ _ _ _ _ HF)]).
    destruct (logs_split read_ok w w1 w' L1 (any_extents _ _ _ _ _ _ _ _ _ _ _ _ H) HL) as [HL1 HL2].
    assert (G : same_but h w w1 /\ exists c', holds w1 h c' /\ forall i, 0 <= i -> within ii i -> byte_at c' i = file_byte D (xs0 ++ [x]) i).
    { unfold FileExtentItem_IsInline in HA. destruct (FileExtentItem_Type e) as [t| |] eqn:Ht; try discriminate. cbn [rbind] in HA. injection HA as <-. change FileExtentInline with 0 in HF.
      destruct (t =? 0) eqn:Et; [apply Z.eqb_eq in Et; subst t|apply Z.eqb_neq in Et].
      - destruct Hx as [(d & _ & Hd & ->)|[(t' & n & HT & HT0 & _)|(t' & n & nr & id & phys & o & HT & HT0 & _)]]; [|congruence|congruence].
        exact (inline_effect E h path ii _ e d w w1 c D xs0 Hd (ik_offset_range k) Hii (data_len _ _ Hd) Hh Hc HF).
      - exact (disk_effect cfuel E dev D q h path k e x ii w w1 c xs0 t HD Hx Ht Et Hh Hc HF HL1). }
    destruct G as (Hsame & c1 & Hh1 & Hc1). destruct (IH (xs0 ++ [x]) w1 w' c1 Hh1 Hc1 H HL2) as (Hsame' & c' & Hh' & Hc'). rewrite <- app_assoc in Hc'.
    split; [exact (same_but_trans _ _ _ _ Hsame Hsame')|]. exists c'. auto.
Qed.
(** leaving the loop early is an error *)
Lemma copy_false E dev h path n src off : forall fuel c w w', copy_loop fuel E dev h path n src off c w = (w', Ret (Returned true)) -> False.
Proof.
  induction fuel as [|fuel IH]; intros c w w' H; [discriminate|]. cbn [copy_loop] in H. cbv zeta in H. destruct (c <? n); [|apply ret_inv in H as [H _]; discriminate].
  apply bind_ret_inv in H as (w1 & [d err] & _ & H). apply bind_ret_inv in H as (w2 & ok & _ & H). destruct ok; cbn [negb] in H; [|apply ret_inv in H as [H _]; discriminate].
  destruct err as [[]|]; [destruct (u64 (c + zlen d) <? n); apply ret_inv in H as [H _]; discriminate|apply ret_inv in H as [H _]; discriminate|exact (IH _ _ _ H)].
Qed.
Lemma extents_false cfuel E dev q h path ii fin : forall l w w', extents_loop cfuel E dev q h path ii l fin w = (w', Ret (Returned true)) -> False.
Proof.
  induction l as [|[k e] l IH]; intros w w' H; cbn [extents_loop] in H.
  - apply bind_ret_inv in H as (w4 & a & _ & H). apply ret_inv in H as [H _]. discriminate.
  - cbv zeta in H. apply bind_ret_inv in H as (w4 & inl & _ & H). apply bind_ret_inv in H as (w5 & f & HF & H). destruct f as [|ok]; [exact (IH _ _ H)|]. apply ret_inv in H as [H _]. injection H as ->.
    destruct inl.
    + unfold inline_extent in HF. apply bind_ret_inv in HF as (w6 & d & _ & HF). cbv zeta in HF. match type of HF with context [if ?b then _ else ret Go_on] => destruct b end; [|apply ret_inv in HF as [HF _]; discriminate].
      apply bind_ret_inv in HF as (w7 & s & _ & HF). apply bind_ret_inv in HF as (w8 & r & _ & HF). apply ret_inv in HF as [HF _]. destruct r; discriminate.
    + unfold disk_extent in HF. apply bind_ret_inv in HF as (w6 & n & _ & HF). apply bind_ret_inv in HF as (w7 & nr & _ & HF). destruct (nr =? 0).
      * apply bind_ret_inv in HF as (w8 & z & _ & HF). apply bind_ret_inv in HF as (w9 & r & _ & HF). apply ret_inv in HF as [HF _]. destruct r; discriminate.
      * apply bind_ret_inv in HF as (w8 & [id ph] & _ & HF). apply bind_ret_inv in HF as (w9 & o & _ & HF). exact (copy_false _ _ _ _ _ _ _ _ _ _ _ HF).
Qed.
(** C48.  When recovering a file reports success (and the file was not skipped
    because it exists), then -- whatever the extents, the device, the state of the
    destination, and whatever system calls fail -- the file behind [path] has exactly
    the inode's size, every byte is the one the extents say (inline data, device
    contents at the mapped place, zero in holes and gaps; the later extent wins), and
    no other file has changed.  Two holes in the error handling are excluded: device
    reads failing otherwise than by io.EOF, and, for a file without extents, a failing
    truncate (see C49). *)
Theorem C48_content cfuel E dev D q clobber owner inode path w w' evs xs it size :
  recoverFile cfuel E dev q clobber owner inode path w = (w', Ret true) ->
  reads_from D dev ->
  Forall2 (is_extent q) (st_items (q_extents q owner inode)) xs ->
  q_inode q owner inode = Ok (Some it) -> InodeItem_Size it = Ok size ->
  w_log w' = evs ++ w_log w -> In (EvOp OOpen path true) evs -> Forall read_ok evs -> (xs = [] -> ~ In (EvOp OTrunc path false) evs) ->
  exists p c, resolve (w_fs w) (e_cwd E) true path = Some p /\ look (w_fs w') p = Some (NFile c) /\
    zlen c = size /\ (forall i, 0 <= i < size -> byte_at c i = file_byte D xs i) /\
    (forall p', p' <> p -> look (w_fs w') p' = look (w_fs w) p').
Proof.
  intros H HD HX Hit Hsz Hlog Hopen Hreads Htr. assert (HL : logs read_ok w w') by (exists evs; auto).
  unfold recoverFile in H. apply bind_ret_inv in H as (w1 & k & HS & H). pose proof (any_syscall _ _ _ _ _ _ _ _ _ HS) as L0.
  assert (HF1 : w_fs w1 = w_fs w). { unfold Stat, syscall in HS. destruct (e_faults E (w_ops w) OStat); [|injection HS as <- _; reflexivity|discriminate]. unfold sys_stat in HS. injection HS as <- _. reflexivity. }
  assert (HE1 : exists ok, w_log w1 = EvOp OStat path ok :: w_log w). { unfold Stat, syscall in HS. destruct (e_faults E (w_ops w) OStat); [|injection HS as <- _; eexists; reflexivity|discriminate]. unfold sys_stat in HS. injection HS as <- _. eexists; reflexivity. }
  destruct (is_some k && negb clobber).
  { exfalso. apply ret_inv in H as [_ ->]. destruct HE1 as [ok HE1]. rewrite HE1 in Hlog. change (EvOp OStat path ok :: w_log w) with ([EvOp OStat path ok] ++ w_log w) in Hlog. apply app_inv_tail in Hlog. subst evs. destruct Hopen as [HO|[]]. discriminate. }
  rewrite Hit in H. apply bind_ret_inv in H as (w2 & i & HA & H). apply lift_ret_inv in HA as [HA ->]. injection HA as <-. rewrite Hsz in H. cbn [rbind] in H.
  apply bind_ret_inv in H as (w2 & ii & HA & H). apply lift_ret_inv in HA as [HA ->]. injection HA as <-. apply bind_ret_inv in H as (w2 & h & HO & H). pose proof (any_syscall _ _ _ _ _ _ _ _ _ HO) as L1.
  destruct h as [h|]; [|apply ret_inv in H as [H _]; discriminate]. destruct (open_effect _ _ _ _ _ HO) as (HR & Hsame1 & Hh1). rewrite HF1 in HR. cbv zeta in H.
  assert (Hsame1' : same_but h w w2) by (intros p' Hp'; rewrite (Hsame1 p' Hp'), HF1; reflexivity). pose proof (at64_range _ _ _ Hsz) as Hszr.
  assert (L2 : logs any_ev w2 w').
  { clear HD. destruct (st_items (q_extents q owner inode)) as [|e0 l].
    - apply bind_ret_inv in H as (w3 & a & HA & H). apply lift_ret_inv in HA as [_ ->]. apply bind_ret_inv in H as (w3 & a' & HA & H). apply ret_inv in H as [_ ->]. exact (any_syscall _ _ _ _ _ _ _ _ _ HA).
    - apply bind_ret_inv in H as (w3 & f & HA & H). apply any_extents in HA. eapply logs_trans; [exact HA|]. destruct f; [|apply ret_inv in H as [_ ->]; apply logs_refl].
      apply bind_ret_inv in H as (w4 & r & HT & H). apply ret_inv in H as [_ ->]. exact (any_syscall _ _ _ _ _ _ _ _ _ HT). }
  destruct (logs_split read_ok w w2 w' (logs_trans _ _ _ _ L0 L1) L2 HL) as [_ HL2].
  assert (Hend : forall w3 c w4, holds w3 h c -> (forall i, 0 <= i -> within (Some size) i -> byte_at c i = file_byte D xs i) -> same_but h w2 w3 -> 0 <= i64 size -> i64 size = size ->
     FTruncate E h path (i64 size) w3 = (w4, Ret (Some tt)) -> w' = w4 ->
     exists p c, resolve (w_fs w) (e_cwd E) true path = Some p /\ look (w_fs w') p = Some (NFile c) /\ zlen c = size /\ (forall i, 0 <= i < size -> byte_at c i = file_byte D xs i) /\
    (forall p', p' <> p -> look (w_fs w') p' = look (w_fs w) p')).
  { intros w3 c w4 Hh3 Hc3 Hs3 Hpos Hi HT ->. rewrite Hi in HT. destruct (trunc_effect _ _ _ _ _ _ _ Hh3 HT) as (_ & Hs4 & Hh4). exists h, (resize c size). split; [exact HR|]. split; [exact Hh4|].
    split; [apply zlen_resize; lia|]. split; [|exact (same_but_trans _ _ _ _ Hsame1' (same_but_trans _ _ _ _ Hs3 Hs4))]. intros i Hi'. rewrite byte_at_resize by exact Hi'. apply Hc3; cbn [within]; lia. }
  destruct (st_items (q_extents q owner inode)) as [|e0 l] eqn:EL.
  - inversion HX; subst xs. specialize (Htr eq_refl). apply bind_ret_inv in H as (w3 & a & HA & H). apply lift_ret_inv in HA as [_ ->]. apply bind_ret_inv in H as (w3 & r & HT & H). apply ret_inv in H as [_ ->].
    assert (Hr : r = Some tt).
    { destruct r as [[]|]; [reflexivity|]. exfalso. apply Htr. assert (HE3 : w_log w3 = EvOp OTrunc path false :: w_log w2).
      { unfold FTruncate, syscall in HT. destruct (e_faults E (w_ops w2) OTrunc); [|injection HT as <-; reflexivity|discriminate]. destruct (sys_trunc h (i64 size) (w_fs w2)) as [F r]. injection HT as <- ->. reflexivity. }
      destruct (logs_trans _ _ _ _ L0 L1) as (e2 & He2 & _). rewrite HE3, He2 in Hlog. change (EvOp OTrunc path false :: e2 ++ w_log w) with ((EvOp OTrunc path false :: e2) ++ w_log w) in Hlog. apply app_inv_tail in Hlog. subst evs. left. reflexivity. }
    subst r. destruct (trunc_effect _ _ _ _ _ _ _ Hh1 HT) as (Hpos & _). assert (Hi : i64 size = size) by (unfold i64 in *; lia).
    apply (Hend w2 [] w3); auto; [|apply same_but_refl]. intros i Hi0 _. unfold byte_at, file_byte. cbn. destruct (Z.to_nat i); reflexivity.
  - rewrite <- EL in *. apply bind_ret_inv in H as (w3 & f & HA & H). pose proof (any_extents _ _ _ _ _ _ _ _ _ _ _ _ HA) as L3. destruct f as [|ok].
    + apply bind_ret_inv in H as (w4 & r & HT & H). apply ret_inv in H as [Hr ->]. destruct r as [[]|]; [|discriminate].
      assert (Hpos : 0 <= i64 size) by (unfold FTruncate, syscall in HT; destruct (e_faults E (w_ops w3) OTrunc); [|discriminate|discriminate]; unfold sys_trunc in HT; destruct (i64 size <? 0) eqn:C; [discriminate|lia]).
      assert (Hi : i64 size = size) by (unfold i64 in *; lia).
      destruct (logs_split read_ok w2 w3 w4 L3 (any_syscall _ _ _ _ _ _ _ _ _ HT) HL2) as [HL3 _].
      destruct (extents_effect cfuel E dev D q h path (Some size) _ HD ltac:(rewrite <- Hi; pose proof (i64_range size); lia) _ _ HX [] w2 w3 [] Hh1 ltac:(intros i Hi0 _; unfold byte_at, file_byte; cbn; destruct (Z.to_nat i); reflexivity) HA HL3) as (Hs3 & c3 & Hh3 & Hc3).
      apply (Hend w3 c3 w4); auto.
    + apply ret_inv in H as [-> ->]. destruct (extents_false _ _ _ _ _ _ _ _ _ _ _ HA).
Qed.
Print Assumptions C48_content.

(** ** success *)
Definition fine (e : event) : Prop := read_ok e /\ match e with EvOp OTrunc _ false => False | _ => True end.
Lemma write_ok E h s data off w c : no_faults E -> holds w h c -> 0 <= off -> off + zlen data < 2^63 ->
  exists w' c', WriteAt E h s data off w = (w', Ret (Some tt)) /\ holds w' h c' /\ logs fine w w'.
Proof.
  intros HE Hh Ho Hd. unfold WriteAt, syscall. rewrite HE. unfold sys_write. replace (off <? 0) with false by lia. unfold holds in Hh.
  destruct data as [|x data]; cbn [is_nil].
  - eexists. exists c. split; [reflexivity|]. split; [exact Hh|]. eexists [_]. split; [reflexivity|]. repeat constructor.
  - replace (2^63 - 1 <? off + zlen (x :: data)) with false by lia. rewrite Hh. eexists. exists (patch c (x :: data) off). split; [reflexivity|].
    split; [apply look_put_same; exact (file_not_root _ _ _ Hh)|]. eexists [_]. split; [reflexivity|]. repeat constructor.
Qed.
Lemma trunc_ok E h s n w c : no_faults E -> holds w h c -> 0 <= n -> exists w' c', FTruncate E h s n w = (w', Ret (Some tt)) /\ holds w' h c' /\ logs fine w w'.
Proof.
  intros HE Hh Hn. unfold FTruncate, syscall. rewrite HE. unfold sys_trunc. replace (n <? 0) with false by lia. unfold holds in Hh. rewrite Hh. eexists. exists (resize c n). split; [reflexivity|].
  split; [apply look_put_same; exact (file_not_root _ _ _ Hh)|]. eexists [_]. split; [reflexivity|]. repeat constructor.
Qed.
Lemma copy_ok E dev D h path n src off : no_faults E -> reads_from D dev -> zlen D < 2^63 -> 0 <= n < 2^64 -> 0 <= src -> src + n <= zlen D -> 0 <= off -> off + n < 2^63 ->
  forall fuel copied w c, 0 <= copied <= n -> n - copied < Z.of_nat fuel -> holds w h c ->
  exists w' c' f, copy_loop fuel E dev h path n src off copied w = (w', Ret f) /\ holds w' h c' /\ (readable dev src n -> f = Go_on /\ logs fine w w').
Proof.
  intros HE HD HDl Hn Hs Hsn Ho Hon. induction fuel as [|fuel IH]; intros copied w c Hc Hf Hh; [lia|]. cbn [copy_loop]. cbv zeta.
  destruct (copied <? n) eqn:C0. 2: { exists w, c, Go_on. split; [reflexivity|]. split; [exact Hh|]. intros _. split; [reflexivity|apply logs_refl]. }
  assert (Hu : u64 (n - copied) = n - copied) by (apply u64_small; unfold is_u64; lia). rewrite Hu. set (m := if chunkSize <? n - copied then chunkSize else n - copied).
  assert (Hm : 0 < m <= n - copied) by (unfold m, chunkSize; destruct (1024 * 1024 <? n - copied) eqn:C; lia). clearbody m.
  rewrite (u64_small (src + copied)) by (unfold is_u64; lia). rewrite (i64_small (src + copied)) by lia. specialize (HD m (src + copied)).
  assert (HG : readable dev src n -> snd (dev m (src + copied)) = None) by (intros HG; apply HG; lia).
  unfold bind at 1, devRead. destruct (dev m (src + copied)) as [d err]. cbn [snd] in HG. destruct HD as [_ HD]. destruct (HD ltac:(lia) ltac:(lia)) as (Hdl & _ & Hdf).
  destruct err as [err|].
  { (* the read fails *)
    set (w1 := mkWorld _ _ _). assert (Hh1 : holds w1 h c) by exact Hh. clearbody w1.
    assert (HN : forall A, (readable dev src n -> A)) by (intros A HH; discriminate (HG HH)).
    assert (HW : exists w2 c2, (if 0 <? zlen d then r <~ WriteAt E h path d (i64 (u64 (off + copied))) ;; ret (is_some r) else ret true) w1 = (w2, Ret true) /\ holds w2 h c2).
    { destruct (0 <? zlen d) eqn:C1; [|exists w1, c; auto]. rewrite (u64_small (off + copied)) by (unfold is_u64; lia). rewrite (i64_small (off + copied)) by lia.
      destruct (write_ok E h path d (off + copied) w1 c HE Hh1 ltac:(lia) ltac:(lia)) as (w2 & c2 & HW & Hh2 & _). exists w2, c2. unfold bind. rewrite HW. auto. }
    destruct HW as (w2 & c2 & HW & Hh2). unfold bind. unfold bind in HW. rewrite HW. cbn [negb].
    destruct err; [match goal with |- context [if ?x <? n then _ else _] => destruct (x <? n) end|]; (eexists; exists c2; eexists; split; [reflexivity|]; split; [exact Hh2|apply HN]). }
  specialize (Hdf eq_refl).
  replace (0 <? zlen d) with true by lia. rewrite (u64_small (off + copied)) by (unfold is_u64; lia). rewrite (i64_small (off + copied)) by lia.
  set (w1 := mkWorld (w_fs w) (w_ops w) (EvRead (src + copied) m (zlen d) None :: w_log w)).
  assert (L1 : logs fine w w1) by (exists [EvRead (src + copied) m (zlen d) None]; split; [reflexivity|repeat constructor]).
  destruct (write_ok E h path d (off + copied) w1 c HE Hh ltac:(lia) ltac:(lia)) as (w2 & c2 & HW & Hh2 & L2). unfold bind at 1, bind at 1. rewrite HW. unfold ret at 1. cbn [is_some negb].
  rewrite (u64_small (copied + zlen d)) by (unfold is_u64; lia). destruct (IH (copied + zlen d) w2 c2 ltac:(lia) ltac:(lia) Hh2) as (w' & c' & f & H' & Hh' & L'). exists w', c', f. split; [exact H'|]. split; [exact Hh'|].
  intros HRd. destruct (L' HRd) as [-> L3]. split; [reflexivity|]. exact (logs_trans _ _ _ _ L1 (logs_trans _ _ _ _ L2 L3)).
Qed.
Lemma inline_ok E h path s off e d w c : no_faults E -> FileExtentItem_Data e = Ok d -> 0 <= off -> off + zlen d < 2^63 -> 0 <= s < 2^63 -> holds w h c ->
  exists w' c', inline_extent E h path (Some s) off e w = (w', Ret Go_on) /\ holds w' h c' /\ logs fine w w'.
Proof.
  intros HE Ed Ho Hd Hs Hh. unfold inline_extent. rewrite Ed. unfold bind at 1, lift at 1. cbv zeta. rewrite (i64_small s) by exact Hs. pose proof (zlen_nonneg d) as Hd0.
  rewrite (i64_small off) by lia. rewrite (i64_small (off + zlen d)) by lia. set (limit := if s <? off + zlen d then i64 (u64 (s - off)) else zlen d).
  assert (Hl : limit <= zlen d) by (unfold limit; destruct (s <? off + zlen d) eqn:C; unfold i64, u64; lia). destruct (0 <? limit) eqn:CL; [|exists w, c; split; [reflexivity|split; [exact Hh|apply logs_refl]]].
  unfold go_to. destruct (go_slice (sl d) 0 limit) as [dd| |] eqn:EG; [| |destruct (go_slice_no_timeout _ _ _ EG)].
  2: { exfalso. rewrite go_slice_ok in EG by (rewrite ?scap_sl; lia). discriminate. }
  unfold bind at 1, lift. assert (HB : zlen (sbytes dd) <= limit). { apply go_slice_inv in EG as (_ & _ & ->). unfold sbytes, zlen. cbn [s_arr s_len]. rewrite firstn_length. lia. }
  destruct (write_ok E h path (sbytes dd) off w c HE Hh Ho ltac:(lia)) as (w2 & c2 & HW & Hh2 & L2). unfold bind. rewrite HW. exists w2, c2. split; [reflexivity|]. auto.
Qed.
Lemma disk_ok cfuel E dev D q h path k e x t w c : no_faults E -> reads_from D dev -> zlen D < 2^63 -> 2^64 < Z.of_nat cfuel -> is_extent q (k, e) x -> usable D x -> FileExtentItem_Type e = Ok t -> t <> 0 -> holds w h c ->
  exists w' c' f, disk_extent cfuel E dev q h path (KOffset (ik_Key k)) e w = (w', Ret f) /\ holds w' h c' /\ (ext_readable dev x -> f = Go_on /\ logs fine w w').
Proof.
  intros HE HD HDl Hcf HX HU Ht Ht0 Hh. pose proof (ik_offset_range k) as Ho. unfold disk_extent.
  destruct HX as [(d & HT & _)|[(t' & n & HT & _ & Hn & Hnr & ->)|(t' & n & nr & id & phys & o & HT & _ & Hn & Hnr & Hnz & Hph & Hof & ->)]]; [congruence| |];
    destruct HU as [HU1 HU2]; cbn [ext_off ext_len] in HU1; pose proof (at64_range _ _ _ Hn) as Hn0; rewrite Hn, Hnr; unfold bind at 1, lift at 1; unfold bind at 1, lift at 1.
  - cbn [Z.eqb]. unfold make_bytes. replace ((0 <=? n) && (n <=? 2^48)) with true by lia. unfold bind at 1, lift at 1. rewrite i64_small by lia.
    destruct (write_ok E h path (zeros n) (KOffset (ik_Key k)) w c HE Hh ltac:(lia) ltac:(rewrite zlen_zeros by lia; lia)) as (w2 & c2 & HW & Hh2 & L2). unfold bind. rewrite HW. exists w2, c2, Go_on. split; [reflexivity|]. auto.
  - replace (nr =? 0) with false by lia. rewrite Hph. unfold bind at 1, lift at 1. rewrite Hof. unfold bind at 1, lift at 1. pose proof (u64_range (phys + o)) as Hsrc. unfold is_u64 in Hsrc.
    change ((phys + o) mod 2^64) with (u64 (phys + o)) in *. cbn [ext_readable]. apply (copy_ok E dev D h path n _ _ HE HD HDl) with (c := c); try assumption; lia.
Qed.
Lemma extents_ok cfuel E dev D q h path s : no_faults E -> reads_from D dev -> zlen D < 2^63 -> 2^64 < Z.of_nat cfuel -> 0 <= s < 2^63 ->
  forall l xs, Forall2 (is_extent q) l xs -> Forall (usable D) xs -> forall w c, holds w h c ->
  exists w' c' f, extents_loop cfuel E dev q h path (Some s) l (Ok tt) w = (w', Ret f) /\ holds w' h c' /\ (Forall (ext_readable dev) xs -> f = Go_on /\ logs fine w w').
Proof.
  intros HE HD HDl Hcf Hs l xs HX. induction HX as [|[k e] x l xs Hx HX IH]; intros HU w c Hh; cbn [extents_loop].
  - exists w, c, Go_on. split; [reflexivity|]. split; [exact Hh|]. intros _. split; [reflexivity|apply logs_refl].
  - inversion HU as [|? ? HU1 HU2]; subst. cbv zeta.
    assert (G : exists inl w1 c1 f, FileExtentItem_IsInline e = Ok inl /\ (if inl : bool then inline_extent E h path (Some s) (KOffset (ik_Key k)) e else disk_extent cfuel E dev q h path (KOffset (ik_Key k)) e) w = (w1, Ret f) /\ holds w1 h c1 /\ (ext_readable dev x -> f = Go_on /\ logs fine w w1)).
    { unfold FileExtentItem_IsInline. pose proof Hx as Hx'. destruct Hx as [(d & HT & Hd & ->)|[(t & n & HT & HT0 & _)|(t & n & nr & id & phys & o & HT & HT0 & _)]].
      - exists true. rewrite HT. destruct HU1 as [HU1 _]. cbn [ext_off ext_len] in HU1. pose proof (ik_offset_range k).
        destruct (inline_ok E h path s (KOffset (ik_Key k)) e d w c HE Hd ltac:(lia) HU1 Hs Hh) as (w1 & c1 & HA & HB & HB'). exists w1, c1, Go_on. split; [reflexivity|]. auto.
      - exists false. rewrite HT. cbn [rbind]. change FileExtentInline with 0. destruct (disk_ok cfuel E dev D q h path k e x t w c HE HD HDl Hcf Hx' HU1 HT HT0 Hh) as (w1 & c1 & f & HA & HB). exists w1, c1, f. split; [f_equal; lia|]. auto.
      - exists false. rewrite HT. cbn [rbind]. change FileExtentInline with 0. destruct (disk_ok cfuel E dev D q h path k e x t w c HE HD HDl Hcf Hx' HU1 HT HT0 Hh) as (w1 & c1 & f & HA & HB). exists w1, c1, f. split; [f_equal; lia|]. auto. }
    destruct G as (inl & w1 & c1 & f & HI & HR & Hh1 & L1). rewrite HI. unfold bind at 1, lift at 1. unfold bind at 1. rewrite HR.
    destruct f as [|ok]; [|exists w1, c1, (Returned ok); split; [reflexivity|]; split; [exact Hh1|]; intros HRd; inversion HRd as [|? ? R1 R2]; subst; destruct (L1 R1) as [A _]; discriminate A].
    destruct (IH HU2 w1 c1 Hh1) as (w' & c' & f & H' & Hh' & L'). exists w', c', f. split; [exact H'|]. split; [exact Hh'|].
    intros HRd. inversion HRd as [|? ? R1 R2]; subst. destruct (L1 R1) as [_ L2]. destruct (L' R2) as [-> L3]. split; [reflexivity|]. exact (logs_trans _ _ _ _ L2 L3).
Qed.
(** C48 on a damaged device: without faults other than failing reads of the device, recovering a file
    whose path can be created (or overwritten with --clobber) comes to an end, and if all the data
    of this file can be read, it succeeds and leaves exactly the file described by the extents. *)
Theorem C48_from_damaged cfuel E dev D q clobber owner inode path w xs it size p :
  no_faults E -> reads_from D dev -> zlen D < 2^63 -> 2^64 < Z.of_nat cfuel ->
  resolve (w_fs w) (e_cwd E) true path = Some p ->
  (look (w_fs w) p = None \/ exists c0, clobber = true /\ look (w_fs w) p = Some (NFile c0)) ->
  Forall2 (is_extent q) (st_items (q_extents q owner inode)) xs -> Forall (usable D) xs -> st_end (q_extents q owner inode) = Ok tt ->
  q_inode q owner inode = Ok (Some it) -> InodeItem_Size it = Ok size -> size < 2^63 ->
  exists w' ok, recoverFile cfuel E dev q clobber owner inode path w = (w', Ret ok) /\
    (Forall (ext_readable dev) xs -> ok = true /\ exists c,
      look (w_fs w') p = Some (NFile c) /\ zlen c = size /\ (forall i, 0 <= i < size -> byte_at c i = file_byte D xs i) /\
      (forall p', p' <> p -> look (w_fs w') p' = look (w_fs w) p')).
Proof.
  intros HE HD HDl Hcf HR Hp HX HU Hend Hit Hsz Hs63. pose proof (at64_range _ _ _ Hsz) as Hszr.
  assert (G : exists w' ok, recoverFile cfuel E dev q clobber owner inode path w = (w', Ret ok) /\ (Forall (ext_readable dev) xs -> ok = true /\ exists evs, w_log w' = evs ++ w_log w /\ In (EvOp OOpen path true) evs /\ Forall fine evs)).
  { unfold recoverFile. assert (HS : exists w1 k, Stat E path w = (w1, Ret k) /\ is_some k && negb clobber = false /\ w_fs w1 = w_fs w /\ logs fine w w1).
    { unfold Stat, syscall. rewrite HE. unfold sys_stat. rewrite HR. eexists. eexists. split; [reflexivity|]. split; [destruct Hp as [->|(c0 & -> & ->)]; reflexivity|]. split; [reflexivity|]. eexists [_]. split; [reflexivity|repeat constructor]. }
    destruct HS as (w1 & k & HS & HK & HF & L1). unfold bind at 1. rewrite HS, HK. rewrite Hit. unfold bind at 1, lift at 1. rewrite Hsz. cbn [rbind]. unfold bind at 1, lift at 1.
    assert (HO : exists w2, OpenFile E path w1 = (w2, Ret (Some p)) /\ holds w2 p [] /\ w_log w2 = EvOp OOpen path true :: w_log w1).
    { unfold OpenFile, syscall. rewrite HE. unfold sys_open. rewrite HF, HR. assert (Hr : p <> []) by (apply (look_missing (w_fs w)); destruct Hp as [->|(c0 & _ & ->)]; discriminate).
      eexists. destruct Hp as [->|(c0 & _ & ->)]; (split; [reflexivity|]); (split; [apply look_put_same; exact Hr|reflexivity]). }
    destruct HO as (w2 & HO & Hh2 & HL2). unfold bind at 1. rewrite HO. cbv zeta.
    assert (HT : forall w3 c3, holds w3 p c3 -> exists w4, FTruncate E p path (i64 size) w3 = (w4, Ret (Some tt)) /\ logs fine w3 w4).
    { intros w3 c3 Hh3. rewrite i64_small by lia. destruct (trunc_ok E p path size w3 c3 HE Hh3 ltac:(lia)) as (w4 & _ & HT & _ & L4). exists w4. auto. }
    assert (HM : exists w' ok, (match st_items (q_extents q owner inode) with
        | [] => _ <~ lift (st_end (q_extents q owner inode)) ;; _ <~ FTruncate E p path (i64 size) ;; ret true
        | l => f <~ extents_loop cfuel E dev q p path (Some size) l (st_end (q_extents q owner inode)) ;;
            match f with Returned ok => ret ok | Go_on => r <~ FTruncate E p path (i64 size) ;; ret (is_some r) end end) w2 = (w', Ret ok) /\ (Forall (ext_readable dev) xs -> ok = true /\ logs fine w2 w')).
    { rewrite Hend. destruct (st_items (q_extents q owner inode)) as [|e0 l] eqn:EL.
      - destruct (HT w2 [] Hh2) as (w4 & HT4 & L4). exists w4, true. unfold bind, lift. rewrite HT4. auto.
      - rewrite <- EL in *. destruct (extents_ok cfuel E dev D q p path size HE HD HDl Hcf ltac:(lia) _ _ HX HU w2 [] Hh2) as (w3 & c3 & f & H3 & Hh3 & L3). rewrite EL in *.
        destruct f as [|ok]; [|exists w3, ok; unfold bind; rewrite H3; split; [reflexivity|]; intros HRd; destruct (L3 HRd) as [A _]; discriminate A].
        destruct (HT w3 c3 Hh3) as (w4 & HT4 & L4). exists w4, true. unfold bind. rewrite H3, HT4. split; [reflexivity|]. intros HRd. split; [reflexivity|]. exact (logs_trans _ _ _ _ (proj2 (L3 HRd)) L4). }
    destruct HM as (w' & ok & HM & HM2). exists w', ok. split; [exact HM|]. intros HRd. destruct (HM2 HRd) as [-> (e3 & He3 & F3)]. split; [reflexivity|]. destruct L1 as (e1 & He1 & F1). exists (e3 ++ EvOp OOpen path true :: e1).
    split; [rewrite He3, HL2, He1, <- app_assoc; reflexivity|]. split; [apply in_or_app; right; left; reflexivity|]. apply Forall_app. split; [exact F3|]. constructor; [repeat constructor|exact F1]. }
  destruct G as (w' & ok & HG & HG2). exists w', ok. split; [exact HG|]. intros HRd. destruct (HG2 HRd) as (-> & evs & Hlog & Hin & HF). split; [reflexivity|]. destruct (C48_content cfuel E dev D q clobber owner inode path w w' evs xs it size HG HD HX Hit Hsz Hlog Hin) as (p' & c & HR' & HA).
  - eapply Forall_impl; [|exact HF]. intros e He. exact (proj1 He).
  - intros _ HI. rewrite Forall_forall in HF. destruct (HF _ HI) as [_ []].
  - rewrite HR in HR'. injection HR' as <-. exists c. exact HA.
Qed.
Print Assumptions C48_from_damaged.
(** C48, the other direction: without faults, on a device that holds all the data,
    recovering a file whose path can be created (or overwritten with --clobber)
    succeeds and leaves exactly the file described by the extents. *)
Theorem C48_recovers cfuel E dev D q clobber owner inode path w xs it size p :
  no_faults E -> good_device D dev -> zlen D < 2^63 -> 2^64 < Z.of_nat cfuel ->
  resolve (w_fs w) (e_cwd E) true path = Some p ->
  (look (w_fs w) p = None \/ exists c0, clobber = true /\ look (w_fs w) p = Some (NFile c0)) ->
  Forall2 (is_extent q) (st_items (q_extents q owner inode)) xs -> Forall (usable D) xs -> st_end (q_extents q owner inode) = Ok tt ->
  q_inode q owner inode = Ok (Some it) -> InodeItem_Size it = Ok size -> size < 2^63 ->
  exists w' c, recoverFile cfuel E dev q clobber owner inode path w = (w', Ret true) /\
    look (w_fs w') p = Some (NFile c) /\ zlen c = size /\ (forall i, 0 <= i < size -> byte_at c i = file_byte D xs i) /\
    (forall p', p' <> p -> look (w_fs w') p' = look (w_fs w) p').
Proof.
  intros HE HD HDl Hcf HR Hp HX HU Hend Hit Hsz Hs63. destruct (C48_from_damaged cfuel E dev D q clobber owner inode path w xs it size p HE (proj1 HD) HDl Hcf HR Hp HX HU Hend Hit Hsz Hs63) as (w' & ok & H1 & H2).
  destruct H2 as (-> & c & H2); [|exists w', c; auto]. clear -HU HD HX. induction HX as [|ke x l xs Hx HX IH]; constructor; inversion HU as [|? ? U1 U2]; subst; [|apply IH; assumption].
  destruct x as [o d|o n|o n src]; try exact Logic.I. intros k b H1 H2 H3. destruct U1 as [_ U1]. apply (proj2 HD); [|exact H2|lia].
  destruct ke as [k0 e]. destruct Hx as [(d & _ & _ & HF)|[(t & n' & _ & _ & _ & _ & HF)|(t & n' & nr & id & phys & o' & _ & _ & _ & _ & _ & _ & _ & HF)]]; try discriminate HF.
  assert (src = (phys + o') mod 2^64) by congruence. pose proof (u64_range (phys + o')) as Hu. unfold u64, is_u64 in Hu. lia.
Qed.
Print Assumptions C48_recovers.

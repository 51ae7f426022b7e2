(** Property theorems C68: the recon command on devices with read errors and
    metadata files with write errors. *)
From Verif Require Import Go GoProofs Layout LayoutProofs SpecLayout LeafProofs StructProofs PropsLayout KeyFmt KeyProofs Bolt Store StoreProofs SpecStore RangeProofs PropsStore Session PropsSession IoUtil Recon PropsRecon PropsReconAny PropsReconEx.
From Coq Require Import ZifyBool ZifyNat ZifyN.
Ltac Zify.zify_post_hook ::= Z.div_mod_to_equations.

(** ** specification *)
(** Reading a device block by block from [off] to [fin]: the blocks delivered, and
    whether the end was reached ([true]; end of file counts) or a read failed
    ([false]). *)
Inductive device_blocks (r : readerAt) (bs fin : Z) : Z -> list (list byte) -> bool -> Prop :=
| db_end off : fin <= off -> device_blocks r bs fin off [] true
| db_eof off d : off < fin -> r bs off = (d, Some EOF) -> device_blocks r bs fin off [] true
| db_err off d : off < fin -> r bs off = (d, Some EOther) -> device_blocks r bs fin off [] false
| db_block off bl bls ok : off < fin -> r bs off = (bl, None) -> zlen bl = bs ->
    device_blocks r bs fin (off + bs) bls ok -> device_blocks r bs fin off (bl :: bls) ok.
(** The items of these blocks, in order: foreign blocks have none, leaves all
    theirs; at the first unreadable item the rest is given up ([false]). *)
Inductive blocks_items (id : list byte) : list (list byte) -> list insertion -> bool -> Prop :=
| bi_nil : blocks_items id [] [] true
| bi_foreign bl bls is c : foreign id bl -> blocks_items id bls is c -> blocks_items id (bl :: bls) is c
| bi_leaf bl bls is c : ~ foreign id bl -> readable_leaf bl -> blocks_items id bls is c -> blocks_items id (bl :: bls) (raw_items bl ++ is) c
| bi_bad bl bls m : ~ foreign id bl -> Z.of_nat m < num 96 4 bl -> ~ item_readable bl (Z.of_nat m) ->
    (forall j, (j < m)%nat -> item_readable bl (Z.of_nat j)) ->
    blocks_items id (bl :: bls) (map (fun j => raw_item bl (Z.of_nat j)) (seq 0 m)) false.
(** a device of [size] bytes that passes the size check *)
Definition sized (dev : device) (bs size : Z) : Prop :=
  dev_seek dev = (size, true) /\ 0 < bs /\ 64 * 1024 * 1024 + bs * 100 <= size /\ size < 2^63.
(** how many of n inserted items have been committed on the way: commits happen
    after every 10001 items *)
Definition committed (n : Z) : Z := 10001 * (n / 10001).

(** ** proofs *)
Fixpoint list_trace (id : list byte) (bls : list (list byte)) : list insertion * exit_status :=
  match bls with
  | [] => ([], XOk)
  | bl :: bls => let '(is, st) := block_trace id bl in
      match st with XOk => let '(is', st') := list_trace id bls in (is ++ is', st') | _ => (is, st) end
  end.
Lemma list_items id bs bls : 101 <= bs < 2^32 -> Forall (fun bl => zlen bl = bs) bls ->
  exists is c, blocks_items id bls is c /\ list_trace id bls = (is, if c then XOk else XPanic).
Proof.
  intros Hb. induction bls as [|bl bls IH]; intros HF; cbn [list_trace].
  - exists [], true. split; [constructor|reflexivity].
  - inversion HF as [|? ? HL HF']; subst. destruct (IH HF') as (is & c & HS & HT).
    destruct (foreign_dec id bl) as [F|F].
    + rewrite foreign_trace by (try exact F; lia). rewrite HT. exists is, c. split; [|reflexivity]. apply bi_foreign; assumption.
    + destruct (leaf_trace_any id bl ltac:(lia) F) as [L1 L2]. destruct (readable_dec bl) as [R|R].
      * rewrite (L1 R), HT. exists (raw_items bl ++ is), c. split; [|reflexivity]. apply bi_leaf; assumption.
      * destruct (L2 R) as (m & H1 & H2 & H3 & ->). eexists _, false. split; [|reflexivity]. apply bi_bad; assumption.
Qed.
Lemma items_fun id bls : forall is c is' c', blocks_items id bls is c -> blocks_items id bls is' c' -> is = is' /\ c = c'.
Proof.
  intros is c is' c' H. revert is' c'. induction H as [|bl bls is c HF HS IH|bl bls is c HF HR HS IH|bl bls m HF Hm HU HR]; intros is' c' H'; inversion H'; subst; try contradiction.
  - auto.
  - auto.
  - match goal with HX : blocks_items id bls _ _ |- _ => destruct (IH _ _ HX) as [-> ->] end. auto.
  - exfalso. match goal with HX : ~ item_readable _ (Z.of_nat ?m) |- _ => apply HX, HR; lia end.
  - exfalso. match goal with HX : readable_leaf _ |- _ => apply HU, HX; lia end.
  - match goal with |- map _ (seq 0 m) = map _ (seq 0 ?m') /\ _ => assert (m = m') as ->; [|auto]; destruct (Nat.lt_trichotomy m m') as [L|[L|L]]; [exfalso; apply HU; auto|exact L|exfalso] end.
    match goal with HX : ~ item_readable _ (Z.of_nat ?m'), L : (?m' < m)%nat |- _ => apply HX, HR, L end.
Qed.
(** a refinement of [durable]: exactly the committed part is on disk *)
Definition exactly (b : bucket) (is : list insertion) (ix : index) : Prop :=
  ix_disk ix = Some (fold_left put_ins (firstn (Z.to_nat (committed (zlen is))) is) b) /\ ix_txNum ix = zlen is - committed (zlen is).
Lemma insert_exactly b is i gen ix : durable b is gen ix -> exactly b is ix ->
  exists ix', InsertItem true i ix = Ok (ix', ENone) /\ durable b (is ++ [i]) gen ix' /\ exactly b (is ++ [i]) ix'.
Proof.
  intros D [X1 X2]. destruct (insert_durable b is i gen ix D) as (ix' & E & D'). exists ix'. split; [exact E|]. split; [exact D'|].
  destruct D as (Hro & Hgen & a & c & Hac & Hd & Hn & Hle & Htx).
  assert (HE : exists ix1, ensureTx true true ix = (ix1, ENone) /\ ix_disk ix1 = ix_disk ix /\
     ix_txNum ix1 = ix_txNum ix /\ ix_tx ix1 = Some (mkTx true (fold_left put_ins is b)) /\ ix_bucket ix1 = true).
  { destruct Htx as [[Ht Hb]|(Ht & Hb & Hc)].
    - exists ix. unfold ensureTx. rewrite Ht. cbn. auto 10.
    - unfold ensureTx, begin_tx. rewrite Ht, Hro, Hd. cbn [andb]. eexists. split; [reflexivity|]. cbn. subst c. rewrite app_nil_r in Hac. subst a. auto 10. }
  destruct HE as (ix1 & HE & D1 & N1 & T1 & B1).
  unfold InsertItem in E. rewrite HE, T1, B1 in E. cbn [tx_writable tx_bucket ix_txNum] in E.
  assert (HF : put_ins (fold_left put_ins is b) i = fold_left put_ins (is ++ [i]) b) by (rewrite fold_left_app; reflexivity).
  rewrite HF in E. pose proof (zlen_nonneg is) as Hz. assert (HL : zlen (is ++ [i]) = zlen is + 1) by (rewrite zlen_app; reflexivity).
  destruct (10000 <? ix_txNum ix1 + 1) eqn:EB.
  - cbn [Commit ix_tx tx_writable andb] in E. injection E as <-. unfold exactly. cbn [ix_disk ix_txNum tx_bucket].
    assert (HC : committed (zlen (is ++ [i])) = zlen (is ++ [i])) by (unfold committed in *; lia).
    rewrite HC. split; [|lia]. unfold zlen. rewrite Nat2Z.id, firstn_all. reflexivity.
  - injection E as <-. unfold exactly. cbn [ix_disk ix_txNum].
    assert (HC : committed (zlen (is ++ [i])) = committed (zlen is)) by (unfold committed in *; lia).
    rewrite HC, D1, X1. split; [|lia]. do 2 f_equal. rewrite firstn_app.
    replace (Z.to_nat (committed (zlen is)) - length is)%nat with 0%nat by (unfold committed, zlen in *; lia). rewrite app_nil_r. reflexivity.
Qed.
(** what a part of a scan does: follow the trace and keep the invariant, or stop
    at a write error *)
Definition follows (b : bucket) (gen : Z) (clean : bool) (is tr : list insertion) (tst : exit_status) (ix' : index) (st : exit_status) : Prop :=
  (st = tst /\ durable b (is ++ tr) gen ix' /\ (clean = true -> exactly b (is ++ tr) ix')) \/
  (clean = false /\ st = XFatal /\ exists a z, tr = a ++ z /\ lossy b (is ++ a) ix').
Lemma items_follow b gen clean okf l : (clean = true -> forall i, okf i = true) -> forall n i is ix, durable b is gen ix -> (clean = true -> exactly b is ix) ->
  exists ix' st, scan_items okf l n i ix = (ix', st) /\ follows b gen clean is (fst (items_trace l n i)) (snd (items_trace l n i)) ix' st.
Proof.
  intros HC. induction n as [|n IH]; intros i is ix D X; cbn [scan_items items_trace].
  - exists ix, XOk. split; [reflexivity|]. left. cbn [fst snd]. rewrite app_nil_r. auto.
  - destruct (leaf_insertion l i) as [ins| |]; [|exists ix, XPanic; split; [reflexivity|]; left; cbn [fst snd]; rewrite app_nil_r; auto..].
    destruct (okf i) eqn:EO.
    + assert (HI : exists ix1, InsertItem true ins ix = Ok (ix1, ENone) /\ durable b (is ++ [ins]) gen ix1 /\ (clean = true -> exactly b (is ++ [ins]) ix1)).
      { destruct clean.
        - destruct (insert_exactly b is ins gen ix D (X eq_refl)) as (ix1 & E1 & D1 & X1). exists ix1. auto.
        - destruct (insert_durable b is ins gen ix D) as (ix1 & E1 & D1). exists ix1. split; [exact E1|]. split; [exact D1|discriminate]. }
      destruct HI as (ix1 & -> & D1 & X1). destruct (IH (i + 1) _ _ D1 X1) as (ix2 & st & E & F). exists ix2, st. split; [exact E|].
      destruct (items_trace l n (i + 1)) as [tr tst]. cbn [fst snd] in *. destruct F as [(F1 & F2 & F3)|(F1 & F2 & a & z & -> & F3)].
      * left. rewrite <- app_assoc in F2, F3. auto.
      * right. split; [exact F1|]. split; [exact F2|]. exists (ins :: a), z. split; [reflexivity|]. rewrite <- app_assoc in F3. exact F3.
    + assert (clean = false) as -> by (destruct clean; [rewrite (HC eq_refl) in EO; discriminate|reflexivity]).
      destruct (insert_fail b is ins gen ix D) as (ix1 & e & -> & D1). destruct e.
      * destruct (IH (i + 1) _ _ D1 ltac:(discriminate)) as (ix2 & st & E & F). exists ix2, st. split; [exact E|].
        destruct (items_trace l n (i + 1)) as [tr tst]. cbn [fst snd] in *. destruct F as [(F1 & F2 & F3)|(F1 & F2 & a & z & -> & F3)].
        -- left. rewrite <- app_assoc in F2. split; [exact F1|]. split; [exact F2|discriminate].
        -- right. split; [exact F1|]. split; [exact F2|]. exists (ins :: a), z. split; [reflexivity|]. rewrite <- app_assoc in F3. exact F3.
      * exists ix1, XFatal. split; [reflexivity|]. right. split; [reflexivity|]. split; [reflexivity|].
        destruct (items_trace l n (i + 1)) as [tr tst]. cbn [fst snd]. exists [], (ins :: tr). split; [reflexivity|]. rewrite app_nil_r. exact D1.
Qed.
Lemma block_follow b gen clean okf id bl is ix : (clean = true -> forall i, okf i = true) -> durable b is gen ix -> (clean = true -> exactly b is ix) ->
  exists ix' st, scan_block okf id bl ix = (ix', st) /\ follows b gen clean is (fst (block_trace id bl)) (snd (block_trace id bl)) ix' st.
Proof.
  intros HC D X. unfold scan_block, block_trace. destruct (w <- _ ;; _) as [[n|]| |].
  - apply items_follow; assumption.
  - exists ix, XOk. split; [reflexivity|]. left. cbn [fst snd]. rewrite app_nil_r. auto.
  - exists ix, XPanic. split; [reflexivity|]. left. cbn [fst snd]. rewrite app_nil_r. auto.
  - exists ix, XPanic. split; [reflexivity|]. left. cbn [fst snd]. rewrite app_nil_r. auto.
Qed.
Lemma block_no_fatal id bl : snd (block_trace id bl) <> XFatal.
Proof. unfold block_trace. destruct (w <- _ ;; _) as [[m|]| |]; try discriminate. apply items_no_fatal. Qed.
Lemma list_no_fatal id bls : snd (list_trace id bls) <> XFatal.
Proof.
  induction bls as [|bl bls IH]; cbn [list_trace]; [discriminate|]. pose proof (block_no_fatal id bl) as HB.
  destruct (block_trace id bl) as [is st]. cbn [snd] in HB. destruct st; [|congruence|discriminate]. destruct (list_trace id bls). exact IH.
Qed.
(** the status of a scan that met no write error *)
Definition ending (tst : exit_status) (ok : bool) : exit_status := match tst with XOk => if ok then XOk else XFatal | _ => tst end.
Lemma loop_follow b gen clean okf r id bs fin : (clean = true -> forall o i, okf o i = true) -> 0 < bs < 2^63 -> fin < 2^63 ->
  forall off bls ok, device_blocks r bs fin off bls ok -> 0 <= off -> forall fuel buf is ix,
  zlen buf = bs -> (length bls < fuel)%nat -> durable b is gen ix -> (clean = true -> exactly b is ix) ->
  exists ix' st, scan_loop fuel okf r id bs fin off buf ix = (ix', st) /\
    follows b gen clean is (fst (list_trace id bls)) (ending (snd (list_trace id bls)) ok) ix' st.
Proof.
  intros HC Hb Hfin off bls ok H. induction H as [off He|off d Hl Hr|off d Hl Hr|off bl bls ok Hl Hr Hz HD IH]; intros Ho fuel buf is ix Hbuf Hf D X;
    (destruct fuel as [|fuel]; [cbn in Hf; lia|]); cbn [scan_loop list_trace].
  - replace (off <? fin) with false by lia. exists ix, XOk. split; [reflexivity|]. left. cbn [fst snd ending]. rewrite app_nil_r. auto.
  - replace (off <? fin) with true by lia.
    assert (Ei : i64 off = off) by (unfold i64; rewrite Z.mod_small by lia; lia).
    unfold ReadBlockAt. rewrite Hbuf, Ei, Hr. exists ix, XOk. split; [reflexivity|]. left. cbn [fst snd ending]. rewrite app_nil_r. auto.
  - replace (off <? fin) with true by lia.
    assert (Ei : i64 off = off) by (unfold i64; rewrite Z.mod_small by lia; lia).
    unfold ReadBlockAt. rewrite Hbuf, Ei, Hr. exists ix, XFatal. split; [reflexivity|]. left. cbn [fst snd ending]. rewrite app_nil_r. auto.
  - replace (off <? fin) with true by lia.
    assert (Ei : i64 off = off) by (unfold i64; rewrite Z.mod_small by lia; lia).
    unfold ReadBlockAt. rewrite Hbuf, Ei, Hr. replace (zlen bl =? bs) with true by lia.
    rewrite skipn_all2 by (unfold zlen in *; lia). rewrite app_nil_r.
    destruct (block_follow b gen clean (okf off) id bl is ix (fun h i => HC h off i) D X) as (ix1 & st1 & E1 & F1). rewrite E1.
    pose proof (block_no_fatal id bl) as NF.
    destruct (block_trace id bl) as [tr1 tst1]. cbn [fst snd] in *.
    destruct F1 as [(-> & D1 & X1)|(F1 & -> & a & z & -> & F3)].
    + destruct tst1; [|congruence|].
      * assert (Eu : u64 (off + bs) = off + bs) by (unfold u64; apply Z.mod_small; lia).
        rewrite Eu. destruct (IH ltac:(lia) fuel bl (is ++ tr1) ix1 Hz ltac:(cbn [length] in Hf; lia) D1 X1) as (ix2 & st & E2 & F2).
        exists ix2, st. split; [exact E2|]. destruct (list_trace id bls) as [tr2 tst2]. cbn [fst snd] in *.
        destruct F2 as [(F1 & F2 & F3)|(F1 & F2 & a & z & -> & F3)].
        -- left. rewrite <- app_assoc in F2, F3. auto.
        -- right. split; [exact F1|]. split; [exact F2|]. exists (tr1 ++ a), z. split; [apply app_assoc|]. rewrite <- app_assoc in F3. exact F3.
      * exists ix1, XPanic. split; [reflexivity|]. left. cbn [fst snd ending]. auto.
    + exists ix1, XFatal. split; [reflexivity|]. right. split; [exact F1|]. split; [reflexivity|].
      destruct tst1; [|congruence|].
      * destruct (list_trace id bls) as [tr2 tst2]. cbn [fst]. exists a, (z ++ tr2). split; [rewrite app_assoc; reflexivity|exact F3].
      * cbn [fst]. exists a, z. auto.
Qed.
Lemma blocks_count r bs fin off bls ok : 0 < bs -> device_blocks r bs fin off bls ok -> off + bs * Z.of_nat (length bls) < fin + bs \/ bls = [].
Proof.
  intros Hb H. induction H as [off He|off d Hl Hr|off d Hl Hr|off bl bls ok Hl Hr Hz HD IH]; try (right; reflexivity).
  left. cbn [length]. destruct IH as [IH| ->]; [|cbn [length]]; lia.
Qed.
Lemma blocks_sizes r bs fin off bls ok : device_blocks r bs fin off bls ok -> Forall (fun bl => zlen bl = bs) bls.
Proof. intros H. induction H; constructor; assumption. Qed.
Lemma opened_rw okopen bs id d d0 ix0 : openIndex okopen (mkOptions false bs id max64 false) d = Ok (d0, Some ix0) -> exists b0, d0 = Some b0 /\ ix0 = rw_open b0 max64.
Proof.
  intros HO. unfold openIndex in HO. destruct (checkUpdateMetadata _ _ d) as [[d1 e]| |] eqn:EC; cbn [rbind] in HO; try discriminate. destruct e; [|discriminate].
  unfold ensureTx, begin_tx in HO. cbn [ix_tx o_ReadOnly negb andb ix_readonly ix_disk ix_bucket ix_txNum ix_Generation o_Generation] in HO.
  assert (Hd1 : exists b0, d1 = Some b0).
  { unfold checkUpdateMetadata in EC. cbn [o_ReadOnly orb] in EC. destruct d as [b|].
    - destruct (get b metadataKey) as [m|]; [|destruct okopen; [injection EC as <-; eauto|discriminate]].
      destruct (check_metadata _ m) as [e'| |]; cbn [rbind] in EC; try discriminate. destruct e'; [|discriminate]. destruct okopen; [injection EC as <-; eauto|discriminate].
    - destruct okopen; [injection EC as <-; eauto|discriminate]. }
  destruct Hd1 as [b0 ->]. injection HO as <- <-. exists b0. split; reflexivity.
Qed.
Lemma scan_faults clean okopen okend okf id dev bs size d d0 ix0 bls ok :
  (clean = true -> okend = true /\ forall o i, okf o i = true) ->
  sized dev bs size -> id <> repeat x00 16 ->
  openIndex okopen (mkOptions false bs id max64 false) d = Ok (d0, Some ix0) ->
  device_blocks (dev_read dev) bs (size - size mod bs) (65536 + bs) bls ok ->
  exists b0 d' st, d0 = Some b0 /\ doScanFS okopen okend okf dev bs id d = (Some d', st) /\
    let is := fst (list_trace id bls) in let tst := ending (snd (list_trace id bls)) ok in
    ((st = tst /\ tst <> XFatal /\ d' = fold_left put_ins is b0) \/
     (clean = true /\ st = XFatal /\ tst = XFatal /\ d' = fold_left put_ins (firstn (Z.to_nat (committed (zlen is))) is) b0) \/
     (clean = false /\ st = XFatal /\ exists a z, is = a ++ z /\ d' = fold_left put_ins a b0)).
Proof.
  intros HC (Hs & H0 & H1 & H2) Hid HO HD. unfold doScanFS. rewrite (proj2 (bytes_eqb_neq _ _) Hid), Hs.
  assert (HS : CheckDeviceSize (size, true) bs = (size, true)).
  { unfold CheckDeviceSize, SuperInfoOffset2. unfold u64. rewrite !(Z.mod_small) by lia.
    replace (size <? bs) with false by lia. replace (size <? 67108864 + bs * 100) with false by lia. reflexivity. }
  rewrite HS. cbn [negb]. replace (bs =? 0) with false by lia. cbv zeta. rewrite HO.
  destruct (opened_rw _ _ _ _ _ _ HO) as (b0 & -> & ->). clear HO. exists b0.
  assert (Eo : u64 (SuperInfoOffset + bs) = 65536 + bs) by (unfold u64, SuperInfoOffset; rewrite Z.mod_small by lia; lia).
  rewrite Eo. set (fin := size - size mod bs) in *. pose proof (Z.mod_pos_bound size bs H0) as Hm.
  assert (D0 : durable b0 [] max64 (rw_open b0 max64)).
  { split; [reflexivity|]. split; [reflexivity|]. exists [], []. cbn. repeat split; auto; lia. }
  assert (X0 : exactly b0 [] (rw_open b0 max64)) by (split; reflexivity).
  assert (HB : zlen (repeat x00 (Z.to_nat bs)) = bs) by (unfold zlen; rewrite repeat_length; lia).
  assert (HF : (length bls < Z.to_nat (fin / bs + 1))%nat).
  { assert (Z.of_nat (length bls) < fin / bs + 1); [|lia]. destruct (blocks_count _ _ _ _ _ _ H0 HD) as [H| ->].
    - assert (Z.of_nat (length bls) <= fin / bs); [|lia]. apply Z.div_le_lower_bound; lia.
    - cbn [length]. assert (0 <= fin / bs); [apply Z.div_pos; lia|lia]. }
  destruct (loop_follow b0 max64 clean okf (dev_read dev) id bs fin (fun h => proj2 (HC h)) ltac:(lia) ltac:(lia) _ _ _ HD ltac:(lia)
     (Z.to_nat (fin / bs + 1)) _ [] _ HB HF D0 (fun _ => X0)) as (ix' & st & E & F). rewrite E. clear E. cbv zeta.
  destruct (list_trace id bls) as [is st0] eqn:ET. cbn [fst snd app] in *.
  destruct F as [(-> & D & X)|(-> & -> & a & z & -> & (a' & c' & Ea & _ & Ed))].
  - assert (HN : ending st0 ok <> XFatal \/ ending st0 ok = XFatal) by (destruct (ending st0 ok); [left; discriminate|right; reflexivity|left; discriminate]).
    destruct HN as [HN|HN].
    + assert (HM : exists d' st, (let '(ix2, e) := Commit okend ix' in match e with EErr => (ix_disk ix2, XFatal) | ENone => match Close okend ix2 with Ok d => (d, ending st0 ok) | _ => (ix_disk ix2, XPanic) end end) = (Some d', st) /\
          ((st = ending st0 ok /\ d' = fold_left put_ins is b0) \/ (clean = false /\ st = XFatal /\ exists a z, is = a ++ z /\ d' = fold_left put_ins a b0))).
      { destruct D as (Hro & Hg & a & c & Hac & Hd & Hn & Hle & Htx). unfold Commit at 1. destruct Htx as [[Ht Hb]|(Ht & Hb & Hc)]; rewrite Ht.
        - cbn [tx_writable andb tx_bucket]. destruct okend.
          + unfold Close. cbn [ix_readonly]. rewrite Hro. eexists _, _. split; [reflexivity|]. left. auto.
          + rewrite Hd. cbn [ix_disk]. eexists _, _. split; [reflexivity|]. right. split; [destruct clean; [destruct (HC eq_refl); discriminate|reflexivity]|]. split; [reflexivity|]. exists a, c. auto.
        - unfold Close, Commit. rewrite Hro, Ht. cbn [fst]. rewrite Hd. subst c. rewrite app_nil_r in Hac. subst a. eexists _, _. split; [reflexivity|]. left. auto. }
      destruct HM as (d' & st & HM & HR). exists d', st. split; [reflexivity|]. split.
      * destruct (ending st0 ok) eqn:EE; [exact HM|congruence|exact HM].
      * destruct HR as [[-> ->]|HR]; [left; auto|right; right; exact HR].
    + rewrite HN. destruct clean.
      * destruct (X eq_refl) as [Xd _]. rewrite Xd. eexists _, _. split; [reflexivity|]. split; [reflexivity|]. right. left. auto.
      * destruct D as (_ & _ & a & c & Hac & Hd & _). rewrite Hd. eexists _, _. split; [reflexivity|]. split; [reflexivity|]. right. right. split; [reflexivity|]. split; [reflexivity|]. exists a, c. auto.
  - rewrite Ed. eexists _, _. split; [reflexivity|]. split; [reflexivity|]. right. right. split; [reflexivity|]. split; [reflexivity|]. exists a', (c' ++ z). cbn [app] in Ea. subst a. rewrite <- app_assoc. auto.
Qed.

(** ** C68 *)
(** Whatever reads and writes fail, and whatever the device contains: the metadata
    file afterwards is what it was when opened plus the items up to some point, in
    order.  Success is reported only if every block was read, every item was
    readable and everything is in the file. *)
Theorem C68_any_faults : forall okopen okend okf id dev bs size d d0 ix0 bls allread,
  sized dev bs size -> 101 <= bs < 2^32 -> id <> repeat x00 16 ->
  openIndex okopen (mkOptions false bs id (2^64 - 1) false) d = Ok (d0, Some ix0) ->
  device_blocks (dev_read dev) bs (size - size mod bs) (65536 + bs) bls allread ->
  exists b0 is whole a z st, d0 = Some b0 /\ blocks_items id bls is whole /\ is = a ++ z /\
    doScanFS okopen okend okf dev bs id d = (Some (fold_left put_ins a b0), st) /\
    (st = XOk -> allread = true /\ whole = true /\ z = []).
Proof.
  intros okopen okend okf id dev bs size d d0 ix0 bls ok HS Hb Hid HO HD.
  destruct (scan_faults false okopen okend okf id dev bs size d d0 ix0 bls ok ltac:(discriminate) HS Hid HO HD) as (b0 & d' & st & -> & E & HR).
  destruct (list_items id bs bls Hb (blocks_sizes _ _ _ _ _ _ HD)) as (is & c & HI & HT). rewrite HT in HR. cbn [fst snd] in HR.
  destruct HR as [(-> & HN & ->)|[(HF & _)|(_ & -> & a & z & Ea & ->)]]; [|discriminate|].
  - exists b0, is, c, is, [], (ending (if c then XOk else XPanic) ok). split; [reflexivity|]. split; [exact HI|]. split; [symmetry; apply app_nil_r|]. split; [exact E|].
    intros HE. destruct c, ok; cbn [ending] in HE; try discriminate. auto.
  - exists b0, is, c, a, z, XFatal. split; [reflexivity|]. split; [exact HI|]. split; [exact Ea|]. split; [exact E|discriminate].
Qed.
(** Without write errors: a block that cannot be read makes recon fail, and the
    file then holds the items before that block up to the last automatic commit,
    one every 10001 items. *)
Theorem C68_read_error : forall id dev bs size d d0 ix0 bls is,
  sized dev bs size -> 101 <= bs < 2^32 -> id <> repeat x00 16 ->
  openIndex true (mkOptions false bs id (2^64 - 1) false) d = Ok (d0, Some ix0) ->
  device_blocks (dev_read dev) bs (size - size mod bs) (65536 + bs) bls false -> blocks_items id bls is true ->
  exists b0, d0 = Some b0 /\
    doScanFS true true no_faults dev bs id d = (Some (fold_left put_ins (firstn (Z.to_nat (committed (zlen is))) is) b0), XFatal).
Proof.
  intros id dev bs size d d0 ix0 bls is HS Hb Hid HO HD HI.
  destruct (scan_faults true true true no_faults id dev bs size d d0 ix0 bls false) as (b0 & d' & st & -> & E & HR); try assumption.
  { intros _. split; reflexivity. }
  destruct (list_items id bs bls Hb (blocks_sizes _ _ _ _ _ _ HD)) as (is' & c & HI' & HT). destruct (items_fun _ _ _ _ _ _ HI HI') as [<- <-].
  rewrite HT in HR. cbn [fst snd ending] in HR. destruct HR as [(_ & HN & _)|[(_ & -> & _ & ->)|(HF & _)]]; [congruence| |discriminate]. exists b0. auto.
Qed.

(** a 65 MiB device every block of which is an intact leaf with two items, except
    that the second block cannot be read *)
Definition sick_read (leaf : list byte) : readerAt := fun _ off => if off =? 65536 + 2 * 4096 then ([], Some EOther) else (leaf, None).
Definition sick_dev (leaf : list byte) : device := mkDev (68157440, true) (sick_read leaf).
#[local] Opaque good_leaf id0.
Example C68_ex : sized (sick_dev good_leaf) 4096 68157440 /\
  device_blocks (dev_read (sick_dev good_leaf)) 4096 (68157440 - 68157440 mod 4096) (65536 + 4096) [good_leaf] false /\
  blocks_items id0 [good_leaf] (raw_items good_leaf ++ []) true /\ zlen (raw_items good_leaf) = 2.
Proof.
  split; [repeat split; lia|]. change (68157440 mod 4096) with 0. split; [|split].
  - apply db_block; [lia|reflexivity|exact good_len|]. eapply db_err; [lia|reflexivity].
  - apply bi_leaf; [exact good_notforeign|exact good_readable|apply bi_nil].
  - unfold raw_items. rewrite good_num. reflexivity.
Qed.
(** One unreadable block and everything else intact: nothing at all is kept, not
    even the items of the blocks read before it; the command fails. *)
Theorem C68_items_kept_refuted : exists id dev bs size bl i b',
  sized dev bs size /\ length id = 16%nat /\ dev_read dev bs (65536 + bs) = (bl, None) /\ zlen bl = bs /\
  (forall off, off <> 65536 + 2 * bs -> snd (dev_read dev bs off) = None) /\
  ~ foreign id bl /\ readable_leaf bl /\ In i (raw_items bl) /\
  doScanFS true true no_faults dev bs id None = (Some b', XFatal) /\
  zlen b' = 1 /\ forall v, ~ stored b' (i_owner i) (i_key i) (i_gen i) v.
Proof.
  destruct C68_ex as (HS & HD & HI & HZ). rewrite app_nil_r in HI. destruct (open_none 4096 id0 id0_len) as (ix & HO).
  destruct (C68_read_error id0 (sick_dev good_leaf) 4096 68157440 None _ ix [good_leaf] _ HS ltac:(lia) id0_nonzero HO HD HI) as (b0 & E0 & HR). injection E0 as <-.
  rewrite HZ in HR. change (Z.to_nat (committed 2)) with 0%nat in HR. cbn [firstn fold_left] in HR.
  eexists id0, (sick_dev good_leaf), 4096, 68157440, good_leaf, (raw_item good_leaf 0), _. split; [exact HS|]. split; [exact id0_len|]. split; [reflexivity|]. split; [exact good_len|].
  split; [|split; [exact good_notforeign|split; [exact good_readable|split; [exact good_in|split; [exact HR|split; [reflexivity|]]]]]].
  - intros off Ho. cbn [sick_dev dev_read]. unfold sick_read. replace (off =? 65536 + 2 * 4096) with false by lia. reflexivity.
  - intros v. apply good_other_key.
Qed.
Print Assumptions C68_any_faults. Print Assumptions C68_read_error. Print Assumptions C68_items_kept_refuted.

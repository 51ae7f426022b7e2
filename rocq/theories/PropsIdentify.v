(** Property theorems C40, C41: the histogram of filesystem ids and the report. *)
From Verif Require Import Go GoProofs Layout LayoutProofs SpecLayout IoUtil Identify.
From Coq Require Import ZifyBool ZifyNat Sorting.Sorted Lia.
Ltac Zify.zify_post_hook ::= Z.div_mod_to_equations.

(** ** specification *)
(** the bytes [off, off+n) of a block, and as a little endian number *)
Definition part (off n : Z) (l : list byte) : list byte := firstn (Z.to_nat n) (skipn (Z.to_nat off) l).
Definition pnum (off n : Z) (l : list byte) : Z := le_decode (part off n l).
(** a leaf block (level byte, at offset 100, is 0) carrying id (at offset 32) *)
Definition leaf_of (id bl : list byte) : bool := bytes_eqb (part 32 16 bl) id && bytes_eqb (part 100 1 bl) [x00].
Definition leaves_of (id : list byte) (blocks : list (list byte)) : list (list byte) := filter (leaf_of id) blocks.
(** the two ids that are never reported *)
Definition no_id (id : list byte) : Prop := id = repeat x00 16 \/ id = repeat xff 16.
(** the data offset of the first item (0 if the leaf has no items) *)
Definition first_offset (bl : list byte) : Z := if pnum 96 4 bl =? 0 then 0 else pnum 118 4 bl.
Definition zsum (l : list Z) : Z := fold_right Z.add 0 l.

(** ** the Go map *)
Lemma map_get_set h k v k' : map_get (map_set h k v) k' = if bytes_eqb k k' then Some v else map_get h k'.
Proof.
  induction h as [|[a w] r IH]; cbn; [reflexivity|].
  destruct (bytes_eqb a k) eqn:E.
  - apply bytes_eqb_eq in E; subst. cbn. destruct (bytes_eqb k k'); reflexivity.
  - cbn. destruct (bytes_eqb a k') eqn:E'; [|exact IH].
    apply bytes_eqb_eq in E'; subst. apply bytes_eqb_neq in E.
    destruct (bytes_eqb k k') eqn:E2; [apply bytes_eqb_eq in E2; congruence|reflexivity].
Qed.
Lemma map_set_keys h k v x : In x (map fst (map_set h k v)) <-> x = k \/ In x (map fst h).
Proof.
  induction h as [|[a w] r IH]; cbn; [intuition|].
  destruct (bytes_eqb a k) eqn:E; [apply bytes_eqb_eq in E; subst; cbn; intuition|].
  cbn. rewrite IH. intuition.
Qed.
Lemma map_set_NoDup h k v : NoDup (map fst h) -> NoDup (map fst (map_set h k v)).
Proof.
  induction h as [|[a w] r IH]; cbn; intros H; [constructor; [intros []|constructor]|].
  inversion H as [|? ? Hn Hd]; subst.
  destruct (bytes_eqb a k) eqn:E; [apply bytes_eqb_eq in E; subst; cbn; constructor; assumption|].
  cbn. constructor; [|auto]. rewrite map_set_keys. intros [->|H']; [rewrite bytes_eqb_refl in E; discriminate|tauto].
Qed.
Lemma map_get_In h k e : NoDup (map fst h) -> map_get h k = Some e <-> In (k, e) h.
Proof.
  induction h as [|[a w] r IH]; cbn; intros H; [intuition discriminate|].
  inversion H as [|? ? Hn Hd]; subst. destruct (bytes_eqb a k) eqn:E.
  - apply bytes_eqb_eq in E; subst. split; [intros [= ->]; auto|].
    intros [[= ->]|Hi]; [reflexivity|]. destruct Hn. apply in_map_iff. exists (k, e). auto.
  - rewrite IH by assumption. split; [auto|]. intros [[= -> ->]|]; [rewrite bytes_eqb_refl in E; discriminate|assumption].
Qed.

(** ** one block *)
Lemma zlen_part off n l : 0 <= off -> 0 <= n -> off + n <= zlen l -> zlen (part off n l) = n.
Proof. intros. unfold part. apply zlen_firstn. rewrite zlen_skipn; lia. Qed.
Lemma at32_part bl o v : at32 o (sl bl) = Ok v -> v = pnum o 4 bl.
Proof. rewrite at32_exact by apply sl_wf. destruct (readable _ _ _); [intros [= <-]; reflexivity|discriminate]. Qed.
Lemma part1 bl o : 0 <= o < zlen bl -> part o 1 bl = [nth (Z.to_nat o) bl x00].
Proof.
  intros H. unfold part. change (Z.to_nat 1) with 1%nat.
  assert (L : (Z.to_nat o < length bl)%nat) by (unfold zlen in H; lia). revert L. generalize (Z.to_nat o). clear.
  induction bl as [|a bl IH]; cbn; intros n L; [lia|]. destruct n; cbn; [reflexivity|]. apply IH. lia.
Qed.
(** what one block does to the histogram *)
Lemma CollectBlock_spec bl h h' : CollectBlock (sl bl) h = Ok h' ->
  h' = let id := part 32 16 bl in
       if leaf_of id bl && negb (bytes_eqb id (repeat x00 16) || bytes_eqb id (repeat xff 16)) then
         match map_get h id with
         | None => map_set h id (mkHist 1 0)
         | Some e => map_set h id (mkHist (u64 (Count e + 1)) (if pnum 96 4 bl =? 0 then BlockSizeSum e else u64 (BlockSizeSum e + first_offset bl)))
         end
       else h.
Proof.
  unfold CollectBlock, Header_IsLeaf, Header_Level. change headerLevel with 100.
  rewrite at8_exact. change (s_len (sl bl)) with (zlen bl). change (s_arr (sl bl)) with bl.
  destruct ((0 <=? 100) && (100 <? zlen bl)) eqn:E; [|discriminate]. cbn [rbind].
  unfold leaf_of. rewrite bytes_eqb_refl. cbv zeta. rewrite part1 by lia. cbn [andb].
  destruct (bz (nth (Z.to_nat 100) bl x00) =? 0) eqn:E0.
  2: { cbn [negb]. intros [= <-]. destruct (bytes_eqb _ [x00]) eqn:E1; [|reflexivity].
       apply bytes_eqb_eq in E1. apply (f_equal (hd xff)) in E1. cbn [hd] in E1. rewrite E1 in E0. discriminate. }
  cbn [negb]. assert (E1 : nth (Z.to_nat 100) bl x00 = x00) by (apply bz_inj; change (bz x00) with 0; lia).
  rewrite E1, bytes_eqb_refl. cbn [andb].
  unfold Header_FSID. change headerFSID with 32. rewrite atUUID_exact by apply sl_wf.
  destruct (readable 32 16 (sl bl)); [|discriminate]. cbn [rbind]. change (bytes_at 32 16 (sl bl)) with (part 32 16 bl).
  destruct (bytes_eqb (part 32 16 bl) (repeat x00 16) || bytes_eqb (part 32 16 bl) (repeat xff 16)); cbn [negb]; [intros [= <-]; reflexivity|].
  destruct (map_get h (part 32 16 bl)) as [e|]; [|intros [= <-]; reflexivity].
  unfold Header_NrItems. change headerNrItems with 96.
  destruct (at32 96 (sl bl)) as [n| |] eqn:En; [|discriminate..]. cbn [rbind]. apply at32_part in En.
  unfold first_offset. rewrite <- En. pose proof (le_decode_range (part 96 4 bl)) as Rn. fold (pnum 96 4 bl) in Rn. rewrite <- En in Rn.
  destruct (0 <? n) eqn:Ep.
  - replace (n =? 0) with false by lia. unfold Item_Offset, at32. change itemOffset with 17. change HeaderLen with 101.
    destruct (go_from (sl bl) 101) as [it| |] eqn:Ei; [|discriminate..]. cbn [rbind].
    assert (H : it = mkSlice (skipn 101 bl) (zlen bl - 101)).
    { unfold go_from in Ei. apply go_slice_inv in Ei as (_ & _ & ->). reflexivity. }
    subst it. fold (at32 17 (mkSlice (skipn 101 bl) (zlen bl - 101))).
    destruct (at32 17 (mkSlice (skipn 101 bl) (zlen bl - 101))) as [off| |] eqn:Eo; [|discriminate..]. cbn [rbind]. intros [= <-].
    rewrite at32_exact in Eo.
    2: { assert (zlen (skipn 101 bl) = zlen bl - 101) by (apply (zlen_skipn bl 101); lia).
         unfold slice_wf, scap; cbn [s_arr s_len]. lia. }
    destruct (readable _ _ _); [|discriminate]. injection Eo as <-.
    replace (pnum 118 4 bl) with (le_decode (bytes_at 17 4 (mkSlice (skipn 101 bl) (zlen bl - 101)))); [reflexivity|].
    unfold pnum, part, bytes_at; cbn [s_arr]. change (Z.to_nat 17) with 17%nat. change (Z.to_nat 118) with (17 + 101)%nat.
    f_equal. f_equal. generalize 17%nat as a, 101%nat as b. intros a b. clear.
    revert b. induction bl as [|x bl IH]; intros b; [now destruct a, b|]. destruct b; [now rewrite Nat.add_0_r|]. rewrite Nat.add_succ_r. apply IH.
  - assert (n = 0) by lia. subst n. rewrite H. cbn [Z.eqb]. intros [= <-]. reflexivity.
Qed.

(** ** all blocks *)
Definition Inv (dn : list (list byte)) (h : hist) : Prop :=
  NoDup (map fst h) /\
  forall id, match map_get h id with
             | Some e => ~ no_id id /\ leaves_of id dn <> [] /\ Count e = zlen (leaves_of id dn) /\
                         BlockSizeSum e = zsum (map first_offset (tl (leaves_of id dn))) mod 2^64
             | None => no_id id \/ leaves_of id dn = []
             end.
Lemma zsum_app a b : zsum (a ++ b) = zsum a + zsum b.
Proof. induction a; cbn; [reflexivity|]. unfold zsum in *. lia. Qed.
Lemma no_idb id : no_id id <-> bytes_eqb id (repeat x00 16) || bytes_eqb id (repeat xff 16) = true.
Proof. unfold no_id. rewrite orb_true_iff, !bytes_eqb_eq. tauto. Qed.
Lemma Inv_step dn h bl h' : Inv dn h -> zlen dn + 1 < 2^64 -> CollectBlock (sl bl) h = Ok h' -> Inv (dn ++ [bl]) h'.
Proof.
  intros (ND & I) Hlen H. apply CollectBlock_spec in H. cbv zeta in H.
  assert (F : forall id, leaves_of id (dn ++ [bl]) = leaves_of id dn ++ (if leaf_of id bl then [bl] else [])).
  { intros id. unfold leaves_of. rewrite filter_app. cbn. destruct (leaf_of id bl); reflexivity. }
  assert (L : forall id, leaf_of id bl = true -> id = part 32 16 bl).
  { intros id H'. unfold leaf_of in H'. apply andb_true_iff in H' as [H' _]. apply bytes_eqb_eq in H'. auto. }
  destruct (leaf_of (part 32 16 bl) bl) eqn:El; cbn [andb] in H.
  2: { subst h'. split; [assumption|]. intros id. specialize (I id). rewrite F.
       destruct (leaf_of id bl) eqn:E'; [pose proof (L _ E'); subst id; congruence|]. rewrite app_nil_r. exact I. }
  destruct (negb _) eqn:En.
  2: { subst h'. apply negb_false_iff in En. apply no_idb in En. split; [assumption|]. intros id. specialize (I id). rewrite F.
       destruct (leaf_of id bl) eqn:E'; [|rewrite app_nil_r; exact I]. pose proof (L _ E'); subst id.
       destruct (map_get h _); [tauto|]. auto. }
  assert (Hn : ~ no_id (part 32 16 bl)) by (rewrite no_idb; apply negb_true_iff in En; congruence).
  assert (Hlv : zlen (leaves_of (part 32 16 bl) dn) <= zlen dn).
  { unfold leaves_of. clear. induction dn; cbn [filter]; [lia|]. destruct (leaf_of _ _); rewrite ?zlen_cons; lia. }
  destruct (map_get h (part 32 16 bl)) as [e|] eqn:Em; subst h'.
  - split; [apply map_set_NoDup; assumption|]. intros id. rewrite map_get_set, F.
    destruct (bytes_eqb (part 32 16 bl) id) eqn:Ei.
    + apply bytes_eqb_eq in Ei. subst id. rewrite El. specialize (I (part 32 16 bl)). rewrite Em in I.
      destruct I as (I1 & I2 & I3 & I4). cbn [Count BlockSizeSum].
      destruct (leaves_of (part 32 16 bl) dn) as [|b0 r]; [congruence|]. cbn [app tl].
      repeat split; [assumption|discriminate| |].
      * rewrite I3, app_comm_cons, zlen_app. change (zlen [bl]) with 1. rewrite !zlen_cons in *.
        unfold u64. pose proof (zlen_nonneg r). rewrite Z.mod_small; lia.
      * rewrite map_app, zsum_app. cbn [map tl zsum fold_right] in *. rewrite I4.
        change (fold_right Z.add 0 (map first_offset r)) with (zsum (map first_offset r)). rewrite Z.add_0_r.
        destruct (pnum 96 4 bl =? 0) eqn:E0.
        -- unfold first_offset at 3. rewrite E0, Z.add_0_r. reflexivity.
        -- unfold u64. rewrite Z.add_mod_idemp_l by lia. reflexivity.
    + specialize (I id). destruct (leaf_of id bl) eqn:E'; [|rewrite app_nil_r; exact I].
      pose proof (L _ E'); subst id. rewrite bytes_eqb_refl in Ei. discriminate.
  - split; [apply map_set_NoDup; assumption|]. intros id. rewrite map_get_set, F.
    destruct (bytes_eqb (part 32 16 bl) id) eqn:Ei.
    + apply bytes_eqb_eq in Ei. subst id. rewrite El. specialize (I (part 32 16 bl)). rewrite Em in I.
      destruct I as [I|I]; [contradiction|]. rewrite I. cbn. repeat split; [assumption|discriminate].
    + specialize (I id). destruct (leaf_of id bl) eqn:E'; [|rewrite app_nil_r; exact I].
      pose proof (L _ E'); subst id. rewrite bytes_eqb_refl in Ei. discriminate.
Qed.
Lemma Inv_all blocks : forall dn h h', Inv dn h -> zlen dn + zlen blocks < 2^64 ->
  CollectBlocks (map sl blocks) h = Ok h' -> Inv (dn ++ blocks) h'.
Proof.
  induction blocks as [|bl r IH]; cbn [map CollectBlocks]; intros dn h h' I Hl H.
  - injection H as <-. rewrite app_nil_r. exact I.
  - destruct (CollectBlock (sl bl) h) as [h1| |] eqn:E; cbn [rbind] in H; try discriminate.
    rewrite zlen_cons in Hl. pose proof (zlen_nonneg r).
    replace (dn ++ bl :: r) with ((dn ++ [bl]) ++ r) by (rewrite <- app_assoc; reflexivity).
    eapply IH; [|rewrite zlen_app; change (zlen [bl]) with 1; lia|exact H].
    eapply Inv_step; [exact I|lia|exact E].
Qed.
Lemma Inv_nil : Inv [] [].
Proof. split; [constructor|]. intros id. right. reflexivity. Qed.

Lemma sort_by_perm {A} (less : A -> A -> bool) l : Permutation (sort_by less l) l.
Proof.
  induction l as [|x l IH]; [constructor|]. change (sort_by less (x :: l)) with (ins_sorted less x (sort_by less l)). transitivity (x :: sort_by less l); [|now constructor].
  generalize (sort_by less l). clear. intros s. induction s as [|y r IH]; cbn; [reflexivity|].
  destruct (less y x); [|reflexivity]. rewrite IH. apply perm_swap.
Qed.
Lemma Entries_In ent min order e : In e (Entries ent min order) <->
  exists id c, In (id, c) order /\ min <= Count c /\ e = mkEntry id (Count c) (ent id) (guess c).
Proof.
  unfold Entries. rewrite (Permutation_in' eq_refl (sort_by_perm _ _)).
  rewrite in_map_iff. split.
  - intros ([id c] & <- & Hi). apply filter_In in Hi as [Hi Hm]. exists id, c. cbn [fst snd] in *. repeat split; [assumption|lia].
  - intros (id & c & Hi & Hm & ->). exists (id, c). split; [reflexivity|]. apply filter_In. split; [assumption|]. cbn. lia.
Qed.

(** *** C40: identify counts.  Collect any blocks (not all headers need be
    readable; blocks of at least 126 bytes never panic), iterate the map in any
    order: an entry for [id] with count [n] is reported iff [id] is not all zero
    or all ones and n > 0 leaf blocks carry it (and n reaches the minimum). *)
Theorem C40_counts blocks h ent min order : zlen blocks < 2^64 ->
  CollectBlocks (map sl blocks) [] = Ok h -> Permutation order h ->
  forall id n,
  (exists e, In e (Entries ent min order) /\ e_FSID e = id /\ e_Count e = n) <->
  ~ no_id id /\ n = zlen (leaves_of id blocks) /\ 0 < n /\ min <= n.
Proof.
  intros Hl H P id n. apply (Inv_all blocks [] [] h) in H; [|apply Inv_nil|rewrite zlen_nil; lia]. cbn [app] in H.
  destruct H as [ND I]. specialize (I id). split.
  - intros (e & He & <- & <-). apply Entries_In in He as (i & c & Hi & Hm & ->). cbn [e_FSID e_Count] in *.
    rewrite (Permutation_in' eq_refl P) in Hi. apply map_get_In in Hi; [|assumption]. rewrite Hi in I.
    destruct I as (I1 & I2 & I3 & _). repeat split; try assumption.
    rewrite I3. destruct (leaves_of i blocks) as [|b0 r]; [congruence|]. rewrite zlen_cons. pose proof (zlen_nonneg r). lia.
  - intros (Hn & -> & H0 & Hm). destruct (map_get h id) as [c|] eqn:E.
    + destruct I as (_ & _ & I3 & _). exists (mkEntry id (Count c) (ent id) (guess c)). cbn [e_FSID e_Count].
      split; [|split; [reflexivity|assumption]]. apply Entries_In. exists id, c.
      rewrite (Permutation_in' eq_refl P). split; [apply map_get_In; assumption|]. split; [lia|reflexivity].
    + destruct I as [I|I]; [contradiction|]. rewrite I in H0. change (zlen (@nil (list byte))) with 0 in H0. lia.
Qed.
Print Assumptions C40_counts.
(** ... and every block of a sane size can be collected *)
Lemma CollectBlock_total bl h : 126 <= zlen bl -> exists h', CollectBlock (sl bl) h = Ok h'.
Proof.
  intros Hl. unfold CollectBlock, Header_IsLeaf, Header_Level, Header_FSID, Header_NrItems.
  change headerLevel with 100. change headerFSID with 32. change headerNrItems with 96. change HeaderLen with 101.
  assert (R : forall o k, 0 <= o -> 0 <= k -> o + k <= 126 -> readable o k (sl bl) = true).
  { intros o k ? ? ?. apply readable_iff. rewrite scap_sl. change (s_len (sl bl)) with (zlen bl). lia. }
  rewrite at8_exact. change (s_len (sl bl)) with (zlen bl). replace ((0 <=? 100) && (100 <? zlen bl)) with true by lia. cbn [rbind].
  destruct (negb _); [eauto|]. rewrite atUUID_exact, R by (apply sl_wf || lia). cbn [rbind].
  destruct (_ || _); [eauto|]. destruct (map_get _ _); [|eauto].
  rewrite at32_exact, R by (apply sl_wf || lia). cbn [rbind].
  destruct (0 <? _); [|eauto]. unfold go_from. change (s_len (sl bl)) with (zlen bl).
  rewrite go_slice_ok by (rewrite ?scap_sl; lia). cbn [rbind]. unfold Item_Offset. change itemOffset with 17.
  change (s_arr (sl bl)) with bl. change (Z.to_nat 101) with 101%nat.
  assert (S : zlen (skipn 101 bl) = zlen bl - 101) by (apply (zlen_skipn bl 101); lia).
  rewrite at32_exact by (unfold slice_wf, scap; cbn [s_arr s_len]; lia).
  replace (readable 17 4 _) with true; [cbn [rbind]; eauto|]. symmetry. apply readable_iff.
  unfold scap; cbn [s_arr s_len]. lia.
Qed.
Theorem C40_collects blocks : Forall (fun bl => 126 <= zlen bl) blocks -> exists h, CollectBlocks (map sl blocks) [] = Ok h.
Proof.
  generalize (@nil (list byte * histEntry)). induction blocks as [|bl r IH]; cbn [map CollectBlocks]; intros h F; [eauto|].
  inversion F as [|? ? Hb Fr]; subst. destruct (CollectBlock_total bl h Hb) as (h' & ->). cbn [rbind]. auto.
Qed.
Print Assumptions C40_collects.
Example C40_ex : (* four leaves of one filesystem, one of another, an inner node and two blocks without an id *)
  let blk id lvl := repeat x00 32 ++ repeat id 16 ++ repeat x00 52 ++ [lvl] ++ repeat x00 30 in
  let blocks := [blk x01 x00; blk x00 x00; blk x02 x00; blk x01 x00; blk x01 x01; blk xff x00; blk x01 x00; blk x01 x00] in
  exists h, CollectBlocks (map sl blocks) [] = Ok h /\
    map (fun e => (e_FSID e, e_Count e)) (Entries (fun _ => S754_zero false) 1 h) = [(repeat x01 16, 4); (repeat x02 16, 1)].
Proof. eexists. split; [vm_compute; reflexivity|]. vm_compute. reflexivity. Qed.

(** ** C41: order of the report *)
(** a is listed before b: larger count, then larger entropy, then larger id *)
Definition before (a b : FSEntry) : Prop :=
  e_Count b < e_Count a \/
  e_Count a = e_Count b /\ (SFcompare (e_Entropy b) (e_Entropy a) = Some Lt \/
    SFcompare (e_Entropy b) (e_Entropy a) = Some Eq /\ bytes_cmp (e_FSID b) (e_FSID a) = Lt).
(** float comparison is a total preorder on non-NaN values *)
Definition frank (f : spec_float) : Z * Z * Z :=
  match f with
  | S754_infinity true => (-2, 0, 0)
  | S754_finite true m e => (-1, - e, - Zpos m)
  | S754_zero _ => (0, 0, 0)
  | S754_finite false m e => (1, e, Zpos m)
  | S754_infinity false => (2, 0, 0)
  | S754_nan => (3, 0, 0)
  end.
Definition cmp3 (a b : Z * Z * Z) : comparison :=
  let '(a1, a2, a3) := a in let '(b1, b2, b3) := b in
  match a1 ?= b1 with Eq => match a2 ?= b2 with Eq => a3 ?= b3 | c => c end | c => c end.
Lemma SFcompare_rank f g : f <> S754_nan -> g <> S754_nan -> SFcompare f g = Some (cmp3 (frank f) (frank g)).
Proof.
  intros Hf Hg. destruct f as [?|[]| |[] m e], g as [?|[]| |[] m' e']; try congruence; try reflexivity; cbn [SFcompare frank cmp3].
  - change (-1 ?= -1) with Eq. cbn [Z.compare].
    change (Pos.compare_cont Eq m m') with (m ?= m')%positive.
    destruct (Z.compare_spec e e'), (Z.compare_spec (- e) (- e')); try (exfalso; lia); try reflexivity.
Qed.
Lemma cmp3_eq a b : cmp3 a b = Eq <-> a = b.
Proof.
  destruct a as [[a1 a2] a3], b as [[b1 b2] b3]. cbn. split.
  - destruct (Z.compare_spec a1 b1), (Z.compare_spec a2 b2), (Z.compare_spec a3 b3); try discriminate; congruence.
  - intros [= -> -> ->]. now rewrite !Z.compare_refl.
Qed.
Lemma cmp3_lt a b : cmp3 a b = Lt <-> (let '(a1, a2, a3) := a in let '(b1, b2, b3) := b in
  a1 < b1 \/ a1 = b1 /\ (a2 < b2 \/ a2 = b2 /\ a3 < b3)).
Proof.
  destruct a as [[a1 a2] a3], b as [[b1 b2] b3]. cbn.
  destruct (Z.compare_spec a1 b1), (Z.compare_spec a2 b2), (Z.compare_spec a3 b3); (split; [intros; try discriminate; lia|intros; try reflexivity; lia]).
Qed.
Lemma cmp3_antisym a b : cmp3 b a = CompOpp (cmp3 a b).
Proof.
  destruct a as [[a1 a2] a3], b as [[b1 b2] b3]. cbn. rewrite (Z.compare_antisym a1 b1), (Z.compare_antisym a2 b2), (Z.compare_antisym a3 b3).
  destruct (a1 ?= b1), (a2 ?= b2), (a3 ?= b3); reflexivity.
Qed.
Definition no_nan (e : FSEntry) : Prop := e_Entropy e <> S754_nan.
Lemma before_rank a b : no_nan a -> no_nan b -> before a b <->
  e_Count b < e_Count a \/ e_Count a = e_Count b /\ (cmp3 (frank (e_Entropy b)) (frank (e_Entropy a)) = Lt \/
    frank (e_Entropy b) = frank (e_Entropy a) /\ bytes_cmp (e_FSID b) (e_FSID a) = Lt).
Proof.
  intros Ha Hb. unfold before. rewrite (SFcompare_rank _ _ Hb Ha). rewrite <- cmp3_eq.
  split; (intros [H|[H1 [H2|[H2 H3]]]]; [left; assumption|right; split; [assumption|]..]).
  all: try (left; congruence). all: right; split; congruence.
Qed.
(** Less, as called through sort.Reverse, is exactly [before] *)
Lemma less_before a b : no_nan a -> no_nan b -> entry_less b a = true <-> before a b.
Proof.
  intros Ha Hb. rewrite before_rank by assumption. unfold entry_less, SFeqb, SFltb.
  rewrite !(SFcompare_rank _ _ Hb Ha). rewrite <- cmp3_eq. unfold bytes_ltb.
  destruct (e_Count b =? e_Count a) eqn:E; cbn [negb].
  - destruct (cmp3 _ _) eqn:C; cbn [negb].
    + destruct (bytes_cmp (e_FSID b) (e_FSID a)) eqn:D.
      * split; [discriminate|]. intros [?|[? [?|[? ?]]]]; [lia|discriminate..].
      * split; [|reflexivity]. intros _. right. split; [lia|]. right. split; reflexivity.
      * split; [discriminate|]. intros [?|[? [?|[? ?]]]]; [lia|discriminate..].
    + split; [intros _; right; split; [lia|left; reflexivity]|reflexivity].
    + split; [discriminate|]. intros [?|[? [?|[? ?]]]]; [lia|discriminate..].
  - split; [lia|]. intros [?|[? _]]; lia.
Qed.
Lemma before_trans a b c : no_nan a -> no_nan b -> no_nan c -> before a b -> before b c -> before a c.
Proof.
  intros Ha Hb Hc. rewrite !before_rank by assumption.
  intros [H|[H [K|[K L]]]] [H'|[H' [K'|[K' L']]]].
  all: try (left; lia). all: right; (split; [lia|]).
  - left. apply cmp3_lt in K, K'. apply cmp3_lt.
    destruct (frank (e_Entropy a)) as [[? ?] ?], (frank (e_Entropy b)) as [[? ?] ?], (frank (e_Entropy c)) as [[? ?] ?]. lia.
  - left. rewrite K'. assumption.
  - left. rewrite <- K. assumption.
  - right. split; [congruence|]. eapply bytes_cmp_lt_trans; eassumption.
Qed.
Lemma before_irrefl a : no_nan a -> ~ before a a.
Proof.
  intros Ha. rewrite before_rank by assumption. intros [H|[H [K|[K L]]]]; [lia| |].
  - apply cmp3_lt in K. destruct (frank (e_Entropy a)) as [[? ?] ?]. lia.
  - assert (bytes_cmp (e_FSID a) (e_FSID a) = Eq) by (apply bytes_cmp_eq; reflexivity). congruence.
Qed.
Lemma before_total a b : no_nan a -> no_nan b -> e_FSID a <> e_FSID b -> before a b \/ before b a.
Proof.
  intros Ha Hb D. rewrite !before_rank by assumption.
  destruct (Z.lt_trichotomy (e_Count a) (e_Count b)) as [H|[H|H]]; [auto| |auto].
  destruct (cmp3 (frank (e_Entropy b)) (frank (e_Entropy a))) eqn:C.
  - apply cmp3_eq in C. destruct (bytes_cmp (e_FSID b) (e_FSID a)) eqn:E.
    + apply bytes_cmp_eq in E. congruence.
    + left. right. auto.
    + right. right. split; [auto|]. right. split; [auto|]. rewrite bytes_cmp_antisym, E. reflexivity.
  - left. right. auto.
  - right. right. split; [auto|]. left. rewrite cmp3_antisym, C. reflexivity.
Qed.

(** a list of distinct ids sorted by [before] is determined by its elements *)
Lemma ssorted_unique (l : list FSEntry) : forall l', Forall no_nan l -> StronglySorted before l -> StronglySorted before l' ->
  Permutation l l' -> l = l'.
Proof.
  induction l as [|a l IH]; intros l' N S S' P.
  - apply Permutation_nil in P. auto.
  - destruct l' as [|b l']; [apply Permutation_sym, Permutation_nil in P; discriminate|].
    assert (N' : Forall no_nan (b :: l')) by (eapply Permutation_Forall; eassumption).
    inversion S as [|? ? Sa Fa]; subst. inversion S' as [|? ? Sb Fb]; subst.
    inversion N as [|? ? Na Nl]; subst. inversion N' as [|? ? Nb Nl']; subst.
    assert (E : a = b).
    { assert (Hb : In b (a :: l)) by (rewrite (Permutation_in' eq_refl P); left; reflexivity).
      assert (Ha : In a (b :: l')) by (rewrite <- (Permutation_in' eq_refl P); left; reflexivity).
      destruct Hb as [|Hb]; [assumption|]. destruct Ha as [|Ha]; [auto|].
      rewrite Forall_forall in Fa, Fb. destruct (before_irrefl a Na). eapply before_trans; [exact Na|exact Nb|exact Na|apply Fa; assumption|apply Fb; assumption]. }
    subst b. f_equal. apply IH; try assumption. eapply Permutation_cons_inv; eassumption.
Qed.
Lemma sort_ssorted l : Forall no_nan l -> NoDup (map e_FSID l) -> StronglySorted before (sort_by (fun a b => entry_less b a) l).
Proof.
  set (less := fun a b => entry_less b a).
  induction l as [|x l IH]; intros N D; [constructor|]. change (sort_by less (x :: l)) with (ins_sorted less x (sort_by less l)).
  inversion N as [|? ? Nx Nl]; subst. cbn [map] in D. inversion D as [|? ? Dx Dl]; subst. specialize (IH Nl Dl).
  assert (P := sort_by_perm less l).
  assert (Nn : Forall no_nan (sort_by less l)) by (eapply Permutation_Forall; [apply Permutation_sym, P|assumption]).
  assert (Dn : ~ In (e_FSID x) (map e_FSID (sort_by less l))).
  { intros H. apply Dx. eapply Permutation_in; [apply Permutation_map, P|exact H]. }
  clear P Dx Dl Nl N D. revert IH Nn Dn. generalize (sort_by less l). clear l. intros s.
  induction s as [|y r IHs]; intros S Nn Dn; [repeat constructor|].
  inversion S as [|? ? Sr Fr]; subst. inversion Nn as [|? ? Ny Nr]; subst. cbn [map In] in Dn. cbn [ins_sorted].
  destruct (less y x) eqn:E.
  - apply less_before in E; [|assumption..]. constructor; [apply IHs; tauto|].
    apply Forall_forall. intros z Hz.
    assert (Hz' : In z (x :: r)).
    { clear - Hz. revert Hz. induction r as [|w r IH]; cbn; [tauto|]. destruct (less w x); cbn; [|tauto]. intros [->|H]; [auto|]. destruct (IH H) as [->|]; auto. }
    destruct Hz' as [<-|Hz']; [assumption|]. rewrite Forall_forall in Fr. auto.
  - assert (B : before x y).
    { destruct (before_total x y Nx Ny) as [B|B]; [intros Heq; apply Dn; left; congruence|assumption|].
      apply less_before in B; [|assumption..]. unfold less in E. congruence. }
    constructor; [assumption|]. constructor; [assumption|]. rewrite Forall_forall in *. intros z Hz.
    eapply before_trans; [exact Nx|exact Ny|apply Nr; assumption|exact B|apply Fr; assumption].
Qed.
(** the entries to be sorted *)
Definition occ (ent : list byte -> spec_float) (min : Z) (order : hist) : list FSEntry :=
  map (fun p => mkEntry (fst p) (Count (snd p)) (ent (fst p)) (guess (snd p))) (filter (fun p => min <=? Count (snd p)) order).
Lemma occ_facts ent min order : (forall id, ent id <> S754_nan) -> NoDup (map fst order) ->
  Forall no_nan (occ ent min order) /\ NoDup (map e_FSID (occ ent min order)).
Proof.
  intros Hn D. split.
  - apply Forall_forall. intros e He. apply in_map_iff in He as (p & <- & _). apply Hn.
  - unfold occ. rewrite map_map. cbn [e_FSID]. clear Hn. induction order as [|p r IH]; cbn; [constructor|].
    cbn in D. inversion D as [|? ? Hp Dr]; subst. destruct (min <=? Count (snd p)); [|auto]. cbn. constructor; [|auto].
    intros H. apply Hp. apply in_map_iff in H as (q & Hq & H). apply filter_In in H as [H _]. rewrite <- Hq. apply in_map. assumption.
Qed.

(** *** C41: for fixed entropies (any non-NaN values, one per id): the report
    lists each id once, exactly the ids that reach the minimum, in strictly
    descending order; and whatever the map iteration order and whatever sorting
    algorithm (any permutation of the entries without an inversion), the report
    is the same list. *)
Theorem C41_order_partial ent min h order : (forall id, ent id <> S754_nan) -> NoDup (map fst h) -> Permutation order h ->
  NoDup (map e_FSID (Entries ent min order)) /\
  (forall id n, (exists e, In e (Entries ent min order) /\ e_FSID e = id /\ e_Count e = n) <->
     exists c, In (id, c) h /\ Count c = n /\ min <= n) /\
  StronglySorted before (Entries ent min order) /\
  Entries ent min order = Entries ent min h /\
  forall out, Permutation out (occ ent min order) ->
    (forall i j a b, (i < j)%nat -> nth_error out i = Some a -> nth_error out j = Some b -> entry_less a b = false) ->
    out = Entries ent min h.
Proof.
  intros Hn D P.
  assert (D' : NoDup (map fst order)) by (eapply Permutation_NoDup; [apply Permutation_map, Permutation_sym, P|assumption]).
  destruct (occ_facts ent min order Hn D') as (N1 & D1). destruct (occ_facts ent min h Hn D) as (N2 & D2).
  assert (PP : Permutation (occ ent min order) (occ ent min h)).
  { unfold occ. apply Permutation_map. clear - P. induction P; cbn; [constructor| | |etransitivity; eassumption].
    - destruct (_ <=? _); [constructor|]; assumption.
    - destruct (_ <=? _), (_ <=? _); try reflexivity. constructor. }
  assert (S1 : StronglySorted before (Entries ent min order)) by (apply sort_ssorted; assumption).
  assert (S2 : StronglySorted before (Entries ent min h)) by (apply sort_ssorted; assumption).
  assert (P1 : Permutation (Entries ent min order) (occ ent min order)) by apply sort_by_perm.
  assert (P2 : Permutation (Entries ent min h) (occ ent min h)) by apply sort_by_perm.
  split; [|split; [|split; [|split]]].
  - eapply Permutation_NoDup; [apply Permutation_map, Permutation_sym, P1|assumption].
  - intros id n. split.
    + intros (e & He & <- & <-). apply Entries_In in He as (i & c & Hi & Hm & ->). exists c. rewrite (Permutation_in' eq_refl P) in Hi. auto.
    + intros (c & Hi & <- & Hm). exists (mkEntry id (Count c) (ent id) (guess c)). split; [|auto]. apply Entries_In. exists id, c.
      rewrite (Permutation_in' eq_refl P). auto.
  - assumption.
  - apply ssorted_unique; try assumption; [eapply Permutation_Forall; [apply Permutation_sym, P1|assumption]|].
    rewrite P1, P2. assumption.
  - intros out Po Ho.
    assert (No : Forall no_nan out) by (eapply Permutation_Forall; [apply Permutation_sym, Po|assumption]).
    assert (Do : NoDup (map e_FSID out)) by (eapply Permutation_NoDup; [apply Permutation_map, Permutation_sym, Po|assumption]).
    apply ssorted_unique; try assumption; [|rewrite Po, P2; assumption].
    clear - No Do Ho. induction out as [|a r IH]; [constructor|]. inversion No as [|? ? Na Nr]; subst. cbn in Do. inversion Do as [|? ? Da Dr]; subst.
    constructor; [apply IH; try assumption; intros i j x y Hij Hx Hy; exact (Ho (S i) (S j) x y ltac:(lia) Hx Hy)|].
    apply Forall_forall. intros b Hb. apply In_nth_error in Hb as (j & Hj).
    assert (Nb : no_nan b) by (rewrite Forall_forall in Nr; apply Nr; eapply nth_error_In; eassumption).
    specialize (Ho 0%nat (S j) a b ltac:(lia) eq_refl Hj).
    destruct (before_total a b Na Nb) as [B|B]; [|assumption|].
    + intros E. apply Da. rewrite E. apply in_map. eapply nth_error_In; eassumption.
    + apply less_before in B; [|assumption..]. congruence.
Qed.
Print Assumptions C41_order_partial.
Example C41_ex : map (fun e => (e_FSID e, e_Count e))
  (Entries (fun id => match id with x05 :: _ => f64_of_Z 3 | _ => f64_of_Z 2 end) 2
     [([x01], mkHist 3 0); ([x05], mkHist 3 0); ([x02], mkHist 1 0); ([x07], mkHist 3 0); ([x04], mkHist 9 0)])
  = [([x04], 9); ([x05], 3); ([x07], 3); ([x01], 3)].
Proof. vm_compute. reflexivity. Qed.

(** *** C41, refuted as stated: the entropy itself is summed up in the order of a
    map iteration, and floating point addition is not associative.  Two ids with
    the same count and the same byte multiplicities (10, 3, 2, 1) can therefore
    appear in either order.  Only four values of log2 matter, given here as the
    correctly rounded ones (Go's portable math.Log2 computes the same ones, see
    [go_log2] below). *)
Definition id_a : list byte := repeat x01 10 ++ repeat x02 3 ++ repeat x03 2 ++ [x04].
Definition id_b : list byte := repeat x11 10 ++ repeat x12 3 ++ repeat x13 2 ++ [x14].
Definition sixteenth (c : Z) : spec_float := f64_div (f64_of_Z c) (f64_of_Z 16).
Theorem C41_refuted log2 :
  log2 (sixteenth 10) = S754_finite true 0x15b2c3da19723b (-53) ->
  log2 (sixteenth 3) = S754_finite true 0x1351ff2e30214c (-51) ->
  log2 (sixteenth 2) = f64_of_Z (-3) -> log2 (sixteenth 1) = f64_of_Z (-4) ->
  let h := [(id_a, mkHist 5 0); (id_b, mkHist 5 0)] in
  exists ent ent', (forall id, id = id_a \/ id = id_b -> ShannonEntropy_result log2 id (ent id) /\ ShannonEntropy_result log2 id (ent' id)) /\
    map e_FSID (Entries ent 1 h) = [id_a; id_b] /\ map e_FSID (Entries ent' 1 h) = [id_b; id_a].
Proof.
  intros H10 H3 H2 H1 h.
  set (lo := ShannonEntropy_f64 log2 16 [10; 1; 2; 3]). set (hi := ShannonEntropy_f64 log2 16 [10; 3; 1; 2]).
  assert (E : forall cs, ShannonEntropy_f64 log2 16 cs = SFopp (entropy_sum log2 (f64_of_Z 16) cs (S754_zero false))) by reflexivity.
  assert (Elo : lo = S754_finite false 0x18069ce57a002e (-52)).
  { unfold lo. rewrite E. cbn [entropy_sum]. fold (sixteenth 10) (sixteenth 1) (sixteenth 2) (sixteenth 3). cbv zeta. rewrite H10, H3, H2, H1. vm_compute. reflexivity. }
  assert (Ehi : hi = S754_finite false 0x18069ce57a002f (-52)).
  { unfold hi. rewrite E. cbn [entropy_sum]. fold (sixteenth 10) (sixteenth 1) (sixteenth 2) (sixteenth 3). cbv zeta. rewrite H10, H3, H2, H1. vm_compute. reflexivity. }
  assert (R : forall id, id = id_a \/ id = id_b -> ShannonEntropy_result log2 id lo /\ ShannonEntropy_result log2 id hi).
  { assert (P : forall id, id = id_a \/ id = id_b -> byte_counts id = [10; 3; 2; 1] /\ zlen id = 16) by (intros id [-> | ->]; split; vm_compute; reflexivity).
    intros id Hid. destruct (P id Hid) as (Pc & Pl). unfold ShannonEntropy_result. rewrite Pc, Pl. split.
    - exists [10; 1; 2; 3]. split; [|reflexivity]. apply perm_skip. transitivity [1; 3; 2]; [apply perm_skip, perm_swap|]. transitivity [3; 1; 2]; [apply perm_swap|]. apply perm_skip, perm_swap.
    - exists [10; 3; 1; 2]. split; [|reflexivity]. apply perm_skip, perm_skip, perm_swap. }
  exists (fun id => if bytes_eqb id id_a then hi else lo), (fun id => if bytes_eqb id id_b then hi else lo).
  split.
  - intros id Hid. destruct (R id Hid). split; destruct (bytes_eqb _ _); assumption.
  - rewrite Elo, Ehi. unfold h. split; vm_compute; reflexivity.
Qed.
Print Assumptions C41_refuted.
(** Go's portable math.Log2 (src/math/log10.go, log.go; FreeBSD's e_log.c), to show
    that the four values above are the ones Go computes; no FMA contraction *)
Definition go_log (x : spec_float) : spec_float :=
  let '(f1, ki) := SFfrexp 53 1024 x in
  let '(f1, ki) := if SFltb f1 (S754_finite false 0x16a09e667f3bcd (-53)) then (f64_mul f1 (f64_of_Z 2), ki - 1) else (f1, ki) in
  let add := f64_add in let mul := f64_mul in let sub := fun a b => f64_add a (SFopp b) in
  let f := sub f1 (f64_of_Z 1) in
  let k := f64_of_Z ki in
  let s := f64_div f (add (f64_of_Z 2) f) in
  let s2 := mul s s in
  let s4 := mul s2 s2 in
  let L1 := S754_finite false 0x15555555555593 (-53) in
  let L2 := S754_finite false 0x1999999997fa04 (-54) in
  let L3 := S754_finite false 0x12492494229359 (-54) in
  let L4 := S754_finite false 0x1c71c51d8e78af (-55) in
  let L5 := S754_finite false 0x17466496cb03de (-55) in
  let L6 := S754_finite false 0x139a09d078c69f (-55) in
  let L7 := S754_finite false 0x12f112df3e5244 (-55) in
  let t1 := mul s2 (add L1 (mul s4 (add L3 (mul s4 (add L5 (mul s4 L7)))))) in
  let t2 := mul s4 (add L2 (mul s4 (add L4 (mul s4 L6)))) in
  let R := add t1 t2 in
  let hfsq := mul (mul (S754_finite false 0x10000000000000 (-53)) f) f in
  sub (mul k (S754_finite false 0x162e42fee00000 (-53)))
      (sub (sub hfsq (add (mul s (add hfsq R)) (mul k (S754_finite false 0x1a39ef35793c76 (-85))))) f).
Definition go_log2 (x : spec_float) : spec_float :=
  let '(fr, e) := SFfrexp 53 1024 x in
  if SFeqb fr (S754_finite false 0x10000000000000 (-53)) then f64_of_Z (e - 1)
  else f64_add (f64_mul (go_log fr) (S754_finite false 0x171547652b82fe (-52))) (f64_of_Z e).
Example C41_refuted_ex : go_log2 (sixteenth 10) = S754_finite true 0x15b2c3da19723b (-53) /\
  go_log2 (sixteenth 3) = S754_finite true 0x1351ff2e30214c (-51) /\
  go_log2 (sixteenth 2) = f64_of_Z (-3) /\ go_log2 (sixteenth 1) = f64_of_Z (-4).
Proof. vm_compute. repeat split. Qed.

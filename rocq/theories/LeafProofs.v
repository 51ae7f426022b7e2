(** Proofs about leaf parsing (leaf.go). *)
From Verif Require Import Go GoProofs Layout SpecLayout LayoutProofs.
From Coq Require Import ZifyBool ZifyNat ZifyN.
Ltac Zify.zify_post_hook ::= Z.div_mod_to_equations.

Lemma HeaderLen_eq : HeaderLen = 101. Proof. reflexivity. Qed.
Lemma ItemLen_eq : ItemLen = 25. Proof. reflexivity. Qed.

Lemma Leaf_Item_ok l i : slice_wf l -> 0 <= i -> 101 + 25 * i + 25 <= scap l ->
  Leaf_Item l i = Ok (mkSlice (skipn (Z.to_nat (101 + 25 * i)) (s_arr l)) 25).
Proof.
  intros Hwf Hi Hl. unfold Leaf_Item. rewrite HeaderLen_eq, ItemLen_eq.
  replace (101 + i * 25) with (101 + 25 * i) by lia. rewrite go_slice_ok by lia.
  do 2 f_equal; lia.
Qed.
Lemma Leaf_Item_panic l i : 0 <= i -> scap l < 101 + 25 * i + 25 -> Leaf_Item l i = Panic.
Proof.
  intros Hi Hl. unfold Leaf_Item. rewrite HeaderLen_eq, ItemLen_eq. apply go_slice_panic. lia.
Qed.

(** reading a 32 bit field through the item slice = reading it in the block *)
Lemma at32_in_item l i k : slice_wf l -> 0 <= i -> 0 <= k -> k + 4 <= 25 -> 101 + 25 * i + 25 <= s_len l ->
  at32 k (mkSlice (skipn (Z.to_nat (101 + 25 * i)) (s_arr l)) 25) = at32 (101 + 25 * i + k) l.
Proof.
  intros Hwf Hi Hk Hk4 Hl. unfold slice_wf in Hwf.
  assert (Hc : zlen (skipn (Z.to_nat (101 + 25 * i)) (s_arr l)) = zlen (s_arr l) - (101 + 25 * i))
    by (apply zlen_skipn; lia).
  assert (Hw1 : slice_wf l) by (unfold slice_wf; lia).
  assert (Hw2 : slice_wf (mkSlice (skipn (Z.to_nat (101 + 25 * i)) (s_arr l)) 25))
    by (unfold slice_wf; cbn [s_arr s_len]; lia).
  rewrite !at32_exact by assumption.
  replace (readable k 4 _) with true; [replace (readable _ 4 l) with true|].
  - unfold bytes_at; cbn [s_arr]. rewrite skipn_skipn'. replace (Z.to_nat (101 + 25 * i) + Z.to_nat k)%nat with (Z.to_nat (101 + 25 * i + k)) by lia. reflexivity.
  - symmetry; apply readable_iff; unfold scap; lia.
  - symmetry; apply readable_iff; unfold scap; cbn [s_arr s_len]; lia.
Qed.

(** ** Len and Items *)
Lemma Leaf_Len_ok l n : Header_NrItems l = Ok n -> scap l < 2^32 ->
  Leaf_Len l = Ok (Z.min n (scap l / 25)).
Proof.
  intros H Hc. unfold Leaf_Len. rewrite H. cbn [rbind]. rewrite ItemLen_eq.
  assert (0 <= scap l) by (unfold scap; apply zlen_nonneg).
  rewrite u32_small by (unfold is_u32; lia).
  destruct (scap l / 25 <? n) eqn:E; f_equal; lia.
Qed.

Lemma Leaf_Items_from_ok l n i : slice_wf l -> 0 <= i -> 101 + 25 * (i + Z.of_nat n) <= scap l ->
  exists r, Leaf_Items_from l n i = Ok r /\ length r = n /\
    forall j, (j < n)%nat -> Leaf_Item l (i + Z.of_nat j) = Ok (nth j r (sl [])).
Proof.
  revert i; induction n as [|n IH]; intros i Hwf Hi Hl.
  - exists []. repeat split; try reflexivity. lia.
  - cbn [Leaf_Items_from]. rewrite Leaf_Item_ok by (try assumption; lia). cbn [rbind].
    destruct (IH (i + 1)) as (r & Hr & Hn & Hj); [assumption|lia|lia|].
    rewrite Hr. cbn [rbind]. eexists; split; [reflexivity|]. split; [cbn; lia|].
    intros [|j] Hjn; cbn [nth].
    + rewrite Z.add_0_r. apply Leaf_Item_ok; (assumption || lia).
    + rewrite <- Hj by lia. f_equal. lia.
Qed.
Lemma Leaf_Items_from_panic l n i : slice_wf l -> 0 <= i -> (0 < n)%nat ->
  scap l < 101 + 25 * (i + Z.of_nat n) -> Leaf_Items_from l n i = Panic.
Proof.
  revert i; induction n as [|n IH]; intros i Hwf Hi Hn Hl; [lia|].
  cbn [Leaf_Items_from]. destruct (Z_lt_dec (scap l) (101 + 25 * i + 25)) as [H|H].
  - rewrite Leaf_Item_panic by assumption. reflexivity.
  - rewrite Leaf_Item_ok by (try assumption; lia). cbn [rbind].
    rewrite IH by (try assumption; lia). reflexivity.
Qed.

(** ** well-formed leaves *)
Lemma leaf_heads_length off es : length (leaf_heads off es) = (5 * length es)%nat.
Proof. revert off; induction es as [|e es IH]; intros off; cbn [leaf_heads length]; [reflexivity|].
  rewrite app_length, IH. change (length (item_fields _)) with 5%nat. lia. Qed.
Lemma sumw_heads off es : sumw (leaf_heads off es) = 25 * zlen es.
Proof.
  revert off; induction es as [|e es IH]; intros off; [reflexivity|].
  cbn [leaf_heads]. rewrite sumw_app, IH, zlen_cons. change (sumw (item_fields _)) with 25. lia.
Qed.
Lemma leaf_heads_nth off es i e : nth_error es i = Some e ->
  exists o, o = off - zlen (concat (map le_data (firstn (S i) es))) /\
  firstn (5 * i) (leaf_heads off es) = leaf_heads off (firstn i es) /\
  skipn (5 * i) (leaf_heads off es) =
    item_fields {| it_key := le_key e; it_offset := o; it_size := zlen (le_data e) |}
      ++ leaf_heads o (skipn (S i) es).
Proof.
  revert off i; induction es as [|x es IH]; intros off i Hn; [destruct i; discriminate|].
  destruct i as [|i].
  - cbn in Hn. injection Hn as ->. eexists; split; [reflexivity|]. split; [reflexivity|].
    cbn [Nat.mul Nat.add skipn leaf_heads firstn map concat]. rewrite zlen_app. change (zlen (@nil byte)) with 0.
    rewrite Z.add_0_r. reflexivity.
  - cbn in Hn. destruct (IH (off - zlen (le_data x)) i Hn) as (o & Ho & H1 & H2).
    exists o. split; [|split].
    + rewrite Ho. cbn [firstn map concat]. rewrite zlen_app. cbn [firstn map concat]. lia.
    + replace (5 * S i)%nat with (5 + 5 * i)%nat by lia. cbn [leaf_heads firstn].
      rewrite <- H1. reflexivity.
    + replace (5 * S i)%nat with (5 + 5 * i)%nat by lia. cbn [leaf_heads].
      exact H2.
Qed.

Lemma nth_error_skipn {A} (l : list A) n i : nth_error (skipn n l) i = nth_error l (n + i).
Proof. revert l; induction n as [|n IH]; intros l; [reflexivity|]. destruct l; cbn; [destruct i; reflexivity|apply IH]. Qed.

Section Leaf.
Variables (h : d_header) (bs : Z) (es : list leaf_entry) (gap : list byte).
Hypothesis OK : leaf_ok h bs es gap.
Let l := sl (leaf_block h bs es gap).
Let fs := header_fields h ++ leaf_heads (bs - 101) es.

Lemma leaf_carries : carries l fs.
Proof.
  destruct OK as (Hf & Hn & Hh & Hb & Hs). split; [apply sl_wf|]. split; [apply fits_app; split; assumption|].
  exists (gap ++ concat (rev (map le_data es))). split.
  - unfold l, fs, sl; cbn [s_arr]. unfold leaf_block. rewrite ser_app, <- !app_assoc. reflexivity.
  - unfold l, sl, fs; cbn [s_len]. unfold leaf_block. rewrite ser_app, !zlen_app.
    pose proof (zlen_nonneg gap). pose proof (zlen_nonneg (concat (rev (map le_data es)))). lia.
Qed.
Lemma leaf_len : s_len l = bs. Proof. destruct OK as (_ & _ & _ & Hb & _). exact Hb. Qed.
Lemma leaf_cap : scap l = bs. Proof. destruct OK as (_ & _ & _ & Hb & _). exact Hb. Qed.
Lemma leaf_room : 101 + 25 * zlen es <= bs.
Proof.
  pose proof leaf_carries as (_ & Hfit & rest & _ & Hle). rewrite zlen_ser in Hle by exact Hfit.
  rewrite leaf_len in Hle. unfold fs in Hle. rewrite sumw_app, sumw_heads in Hle.
  change (sumw (header_fields h)) with 101 in Hle. exact Hle.
Qed.
Lemma leaf_NrItems : Header_NrItems l = Ok (zlen es).
Proof.
  destruct OK as (_ & Hn & _). rewrite <- Hn. exact (f32 _ _ 7 _ leaf_carries eq_refl).
Qed.
Lemma leaf_Len : Leaf_Len l = Ok (zlen es).
Proof.
  rewrite (Leaf_Len_ok _ _ leaf_NrItems); rewrite leaf_cap.
  - f_equal. pose proof leaf_room. pose proof (zlen_nonneg es). lia.
  - destruct OK as (_ & _ & _ & _ & Hs). exact Hs.
Qed.
Lemma leaf_fields_nth i e k f : nth_error es i = Some e ->
  nth_error (item_fields (entry_item bs es i e)) k = Some f ->
  nth_error fs (9 + 5 * i + k) = Some f.
Proof.
  intros Hn Hk. unfold fs. rewrite nth_error_app2 by (cbn; lia).
  replace (9 + 5 * i + k - length (header_fields h))%nat with (5 * i + k)%nat by (cbn; lia).
  destruct (leaf_heads_nth (bs - 101) es i e Hn) as (o & Ho & _ & H2).
  rewrite <- nth_error_skipn, H2.
  rewrite nth_error_app1.
  - rewrite Ho. exact Hk.
  - assert (k < length (item_fields (entry_item bs es i e)))%nat by (apply nth_error_Some; congruence).
    cbn in *; lia.
Qed.
Lemma leaf_off i e : nth_error es i = Some e -> sumw (firstn (9 + 5 * i) fs) = 101 + 25 * Z.of_nat i.
Proof.
  intros Hn. unfold fs. rewrite firstn_app.
  replace (9 + 5 * i - length (header_fields h))%nat with (5 * i)%nat by (cbn; lia).
  rewrite firstn_all2 by (cbn; lia).
  destruct (leaf_heads_nth (bs - 101) es i e Hn) as (o & _ & H1 & _).
  rewrite sumw_app, H1, sumw_heads. change (sumw (header_fields h)) with 101.
  unfold zlen. rewrite firstn_length_le; [reflexivity|].
  apply Nat.lt_le_incl, nth_error_Some. congruence.
Qed.
Lemma leaf_i_lt i e : nth_error es i = Some e -> 101 + 25 * Z.of_nat i + 25 <= bs.
Proof.
  intros Hn. assert (i < length es)%nat by (apply nth_error_Some; congruence).
  pose proof leaf_room. unfold zlen in *. lia.
Qed.
Lemma leaf_Key i e : nth_error es i = Some e ->
  Leaf_Key l (Z.of_nat i) = Ok (mkKey (k_objectid (le_key e)) (k_type (le_key e)) (k_offset (le_key e))).
Proof.
  intros Hn. unfold Leaf_Key. rewrite HeaderLen_eq, ItemLen_eq. unfold itemKey.
  replace (101 + Z.of_nat i * 25 + 0) with (101 + 25 * Z.of_nat i) by lia. rewrite <- (leaf_off i e Hn).
  apply fKey; [exact leaf_carries|..].
  - rewrite <- (Nat.add_0_r (9 + 5 * i)). apply (leaf_fields_nth i e 0); [exact Hn|reflexivity].
  - replace (S (9 + 5 * i)) with (9 + 5 * i + 1)%nat by lia. apply (leaf_fields_nth i e 1); [exact Hn|reflexivity].
  - replace (S (S (9 + 5 * i))) with (9 + 5 * i + 2)%nat by lia. apply (leaf_fields_nth i e 2); [exact Hn|reflexivity].
Qed.
Lemma leaf_Offset_Size i e it : nth_error es i = Some e -> Leaf_Item l (Z.of_nat i) = Ok it ->
  Item_Offset it = Ok (it_offset (entry_item bs es i e)) /\ Item_Size it = Ok (zlen (le_data e)).
Proof.
  intros Hn Hi. pose proof (leaf_i_lt i e Hn) as Hlt.
  assert (Hwf : slice_wf l) by apply sl_wf.
  rewrite Leaf_Item_ok in Hi by (try assumption; rewrite ?leaf_cap; lia).
  apply (f_equal (fun r => match r with Ok x => x | _ => it end)) in Hi. cbn beta iota in Hi. subst it.
  assert (H3 : nth_error fs (9 + 5 * i + 3) = Some (I 4 (it_offset (entry_item bs es i e))))
    by (apply (leaf_fields_nth i e 3); [exact Hn|reflexivity]).
  assert (H4 : nth_error fs (9 + 5 * i + 4) = Some (I 4 (zlen (le_data e))))
    by (apply (leaf_fields_nth i e 4); [exact Hn|reflexivity]).
  assert (H0 : nth_error fs (9 + 5 * i + 0) = Some (I 8 (k_objectid (le_key e))))
    by (apply (leaf_fields_nth i e 0); [exact Hn|reflexivity]).
  assert (H1 : nth_error fs (9 + 5 * i + 1) = Some (I 1 (k_type (le_key e))))
    by (apply (leaf_fields_nth i e 1); [exact Hn|reflexivity]).
  assert (H2 : nth_error fs (9 + 5 * i + 2) = Some (I 8 (k_offset (le_key e))))
    by (apply (leaf_fields_nth i e 2); [exact Hn|reflexivity]).
  pose proof (leaf_off i e Hn) as Ho.
  replace (9 + 5 * i + 0)%nat with (9 + 5 * i)%nat in H0 by lia.
  replace (9 + 5 * i + 1)%nat with (S (9 + 5 * i)) in H1 by lia.
  replace (9 + 5 * i + 2)%nat with (S (S (9 + 5 * i))) in H2 by lia.
  replace (9 + 5 * i + 3)%nat with (S (S (S (9 + 5 * i)))) in H3 by lia.
  replace (9 + 5 * i + 4)%nat with (S (S (S (S (9 + 5 * i))))) in H4 by lia.
  pose proof (sumw_S _ _ _ H0) as S1. pose proof (sumw_S _ _ _ H1) as S2.
  pose proof (sumw_S _ _ _ H2) as S3. pose proof (sumw_S _ _ _ H3) as S4.
  cbn [fw] in *.
  split.
  - unfold Item_Offset, itemOffset, itemKey, KeyLen.
    rewrite at32_in_item by (try exact Hwf; rewrite ?leaf_len; lia).
    replace (101 + 25 * Z.of_nat i + (0 + (8 + 1 + 8))) with (sumw (firstn (S (S (S (9 + 5 * i)))) fs)) by lia.
    apply f32; [exact leaf_carries|exact H3].
  - unfold Item_Size, itemSize, itemOffset, itemKey, KeyLen.
    rewrite at32_in_item by (try exact Hwf; rewrite ?leaf_len; lia).
    replace (101 + 25 * Z.of_nat i + (0 + (8 + 1 + 8) + 4)) with (sumw (firstn (S (S (S (S (9 + 5 * i))))) fs)) by lia.
    apply f32; [exact leaf_carries|exact H4].
Qed.
Lemma concat_rev_split i e : nth_error es i = Some e ->
  concat (rev (map le_data es)) =
  concat (rev (map le_data (skipn (S i) es))) ++ le_data e ++ concat (rev (map le_data (firstn i es))).
Proof.
  intros Hn. pose proof (nth_split_fields es i e Hn) as Hs.
  rewrite Hs at 1. rewrite map_app, rev_app_distr. cbn [map rev]. rewrite !concat_app. cbn [concat].
  rewrite app_nil_r, app_assoc. reflexivity.
Qed.
Lemma zlen_concat_rev (x : list (list byte)) : zlen (concat (rev x)) = zlen (concat x).
Proof.
  induction x as [|a x IH]; [reflexivity|]. cbn [rev concat]. rewrite concat_app, !zlen_app, IH.
  cbn [concat]. rewrite app_nil_r. lia.
Qed.
Lemma leaf_Data i e : nth_error es i = Some e ->
  (d <- Leaf_Data l (Z.of_nat i) ;; Ok (sbytes d)) = Ok (le_data e).
Proof.
  intros Hn. pose proof (leaf_i_lt i e Hn) as Hlt.
  assert (Hwf : slice_wf l) by apply sl_wf.
  assert (Hit : exists it, Leaf_Item l (Z.of_nat i) = Ok it)
    by (eexists; apply Leaf_Item_ok; [exact Hwf|lia|rewrite leaf_cap; lia]).
  destruct Hit as [it Hit]. destruct (leaf_Offset_Size i e it Hn Hit) as [Ho Hs].
  unfold Leaf_Data. rewrite Hit. cbn [rbind]. rewrite Ho. cbn [rbind]. rewrite Hs. cbn [rbind].
  rewrite leaf_len. cbn [it_offset entry_item].
  assert (Hc : concat (map le_data (firstn (S i) es)) = concat (map le_data (firstn i es)) ++ le_data e).
  { rewrite (firstn_S_nth _ _ _ Hn), map_app, concat_app. cbn. rewrite app_nil_r. reflexivity. }
  rewrite Hc, zlen_app. rewrite HeaderLen_eq.
  destruct OK as (Hfit & Hnr & Hfh & Hb & Hbs).
  assert (Hblk : leaf_block h bs es gap =
     (ser (header_fields h) ++ ser (leaf_heads (bs - 101) es) ++ gap ++ concat (rev (map le_data (skipn (S i) es)))) ++
     le_data e ++ concat (rev (map le_data (firstn i es)))).
  { unfold leaf_block. rewrite (concat_rev_split i e Hn), <- !app_assoc. reflexivity. }
  pose proof Hb as Hb2. rewrite Hblk, zlen_app, (zlen_app (le_data e)), zlen_concat_rev in Hb2.
  set (a := zlen (concat (map le_data (firstn i es)))) in *.
  assert (Hpre : 101 <= zlen (ser (header_fields h) ++ ser (leaf_heads (bs - 101) es) ++ gap ++ concat (rev (map le_data (skipn (S i) es))))).
  { rewrite zlen_app. rewrite (zlen_ser (header_fields h)) by exact Hfit.
    change (sumw (header_fields h)) with 101. pose proof (zlen_nonneg (ser (leaf_heads (bs - 101) es) ++ gap ++ concat (rev (map le_data (skipn (S i) es))))). lia. }
  set (pre := ser (header_fields h) ++ _) in *.
  pose proof (zlen_nonneg (le_data e)). assert (0 <= a) by apply zlen_nonneg.
  rewrite (u32_small (101 + (bs - 101 - (a + zlen (le_data e))))) by (unfold is_u32; lia).
  rewrite (u32_small bs) by (unfold is_u32; lia).
  replace (101 + (bs - 101 - (a + zlen (le_data e)))) with (zlen pre) by lia.
  rewrite (u32_small (zlen pre + zlen (le_data e))) by (unfold is_u32; lia).
  replace (bs <? zlen pre + zlen (le_data e)) with false by lia.
  apply (slice_field l pre (le_data e) (concat (rev (map le_data (firstn i es))))); [exact Hblk|reflexivity|reflexivity].
Qed.
End Leaf.

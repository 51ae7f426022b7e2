(** The index answers as [seen] says (SpecGen.v), whatever the generations. *)
From Verif Require Import Go GoProofs Layout LayoutProofs SpecLayout LeafProofs StructProofs PropsLayout KeyFmt KeyProofs Bolt Store StoreProofs SpecStore RangeProofs PropsStore PropsRange Session PropsSession IoUtil Recon PropsRecon RangeItems.
From Verif Require Import Fs Recover SpecFs SpecContent SpecTree SpecDisk DiskProofs SpecGen PropsDisk.
From Verif Require PropsRecoverDfs.
From Coq Require Import ZifyBool ZifyNat ZifyN Sorted.
Ltac Zify.zify_post_hook ::= Z.div_mod_to_equations.

Lemma version_some is o k g j : version is o k g = Some j <-> exists a c, is = a ++ j :: c /\ same_tuple j o k g /\ forall i, In i c -> ~ same_tuple i o k g.
Proof.
  assert (HB : forall i, (i_owner i =? o) && same_keyb (i_key i) k && (i_gen i =? g) = true <-> same_tuple i o k g).
  { intros i. unfold same_tuple. rewrite !andb_true_iff, same_keyb_eq, !Z.eqb_eq. tauto. }
  unfold version. induction is as [|i l IH] using rev_ind; cbn [fold_left]; [split; [discriminate|intros (a & c & E & _); destruct a; discriminate E]|].
  rewrite fold_left_app. cbn [fold_left]. destruct ((i_owner i =? o) && same_keyb (i_key i) k && (i_gen i =? g)) eqn:EB.
  - split.
    + intros E. assert (i = j) by congruence. subst j. exists l, []. split; [reflexivity|]. split; [apply HB; exact EB|intros ? []].
    + intros (a & c & E & A & B). apply HB in EB. destruct c as [|x c] using rev_ind; [apply app_inj_tail in E as [_ E]; congruence|].
      clear IHc. rewrite app_comm_cons, app_assoc in E. apply app_inj_tail in E as [_ E]. subst x. destruct (B i); [apply in_or_app; right; left; reflexivity|exact EB].
  - rewrite IH. split.
    + intros (a & c & E & A & B). exists a, (c ++ [i]). split; [rewrite E, <- app_assoc; reflexivity|]. split; [exact A|]. intros x Hx. apply in_app_or in Hx as [Hx|[<-|[]]]; [apply B; exact Hx|]. intros HX. apply HB in HX. congruence.
    + intros (a & c & E & A & B). destruct c as [|x c] using rev_ind.
      * apply app_inj_tail in E as [_ E]. subst j. apply HB in A. congruence.
      * clear IHc. rewrite app_comm_cons, app_assoc in E. apply app_inj_tail in E as [E _]. exists a, c. split; [exact E|]. split; [exact A|]. intros y Hy. apply B. apply in_or_app. left. exact Hy.
Qed.
Lemma version_in is o k g j : version is o k g = Some j -> In j is /\ i_owner j = o /\ i_key j = k /\ i_gen j = g.
Proof. intros H. apply version_some in H as (a & c & -> & (A & B & C) & _). split; [apply in_or_app; right; left; reflexivity|auto]. Qed.
Lemma same_in is o g : forall l j, In j (same_generation is o g l) -> In j is /\ i_owner j = o /\ i_gen j = g /\ exists i, In i l /\ i_key j = i_key i.
Proof.
  induction l as [|i l IH]; intros j Hj; cbn [same_generation] in Hj; [destruct Hj|]. destruct (version is o (i_key i) g) as [v|] eqn:EV; [|destruct Hj]. destruct Hj as [<-|Hj].
  - destruct (version_in _ _ _ _ _ EV) as (A & B & C & D). split; [exact A|]. split; [exact B|]. split; [exact D|]. exists i. split; [left; reflexivity|exact C].
  - destruct (IH j Hj) as (A & B & C & x & Hx & E). split; [exact A|]. split; [exact B|]. split; [exact C|]. exists x. split; [right; exact Hx|exact E].
Qed.
Lemma same_sorted is o g l : isorted l -> isorted (same_generation is o g l).
Proof.
  unfold isorted. induction 1 as [|i l _ IH HF]; cbn [same_generation]; [constructor|]. destruct (version is o (i_key i) g) as [v|] eqn:EV; constructor; [exact IH|].
  apply Forall_forall. intros j Hj. destruct (same_in _ _ _ _ _ Hj) as (_ & _ & _ & x & Hx & E). destruct (version_in _ _ _ _ _ EV) as (_ & _ & K & _). rewrite K, E. rewrite Forall_forall in HF. apply HF. exact Hx.
Qed.
Lemma seen_in is o l j : In j (seen_of is o l) -> In j is /\ i_owner j = o /\ exists i, In i l /\ i_key j = i_key i.
Proof. unfold seen_of. destruct l as [|i l]; [intros []|]. intros H. destruct (same_in _ _ _ _ _ H) as (A & B & _ & D). auto. Qed.

Section Seen.
  Variables (is : list insertion) (m : list byte) (cs : list (Z * d_chunk)).
  Let b := fold_left put_ins is [(metadataKey, m)].
  Hypothesis HW : Forall wf_ins is.
  Hypothesis HV : forall i, In i is -> insert_value (i_item i) (i_data i) = i_item i ++ i_data i /\ valueData (i_item i ++ i_data i) = Ok (sl (i_data i)).
  Hypothesis HO : forall i, In i is -> i_owner i < max64.
  Hypothesis HD : separated is.
  Hypothesis HC : seen_chunks is cs.
  Let b_opened := DiskProofs.b_opened is m HW.
  Let b_stored := DiskProofs.b_stored is m HW HV.
  Let wf_of := DiskProofs.wf_of is HW.
  Let b_present := DiskProofs.b_present is m HW HV.
  Let b_latest := DiskProofs.b_latest is m HW HV HO.
  Let b_data := DiskProofs.b_data is m HW HV.
  Let b_entry := DiskProofs.b_entry is m.
  Let part_keys := DiskProofs.part_keys is m HW HV.
  Lemma s_nomax o : o < max64 -> is_u64 o -> no_max_gen b o.
  Proof.
    intros Ho Hu k v Hk Hst. apply b_stored in Hst as (a & i & c & E & (_ & _ & A3) & _); [|unfold wf_tuple; auto using max64_u64|exact Ho].
    assert (Hi : In i is) by (rewrite E; apply in_or_app; right; left; reflexivity). destruct (proj1 (proj2 HD) i Hi) as [G _]. unfold max64 in A3. lia.
  Qed.
  Lemma s_types o k : o < max64 -> is_u64 o -> present b o k -> KType k < 255.
  Proof. intros Ho Hu H. apply b_present in H as (i & Hi & _ & <-); try assumption. apply (proj1 (proj2 HD) i Hi). Qed.
  Lemma s_nowrap o last : o < max64 -> is_u64 o -> separate is o last -> no_wrap b o last.
  Proof.
    intros Ho Hu [(i & Hi & Eo & HL)|H].
    - right. exists (i_key i). split; [apply b_present; try assumption; exists i; auto|exact HL].
    - left. intros N HN Hlt Hmin g v Hg Hst. apply b_entry in HN as [->|(j & Hj & E)].
      + cbn [fst] in *. destruct (ik_built max64 KL0 max64) as (_ & _ & _ & _ & _ & E); [repeat split; try exact max64_u64; unfold is_u64, is_u8; cbn; lia|].
        unfold metadataKey in Hst. rewrite E in Hst. assert (P : present b o KL0) by (split; [repeat split; unfold is_u64, is_u8, max64; cbn; lia|exists g, v; auto]).
        apply s_types in P; try assumption. cbn in P. lia.
      + rewrite E in *. destruct (ik_built _ _ _ (wf_of j Hj)) as (E1 & _ & _ & _ & E2 & E3). rewrite E1, E3 in *.
        assert (P : present b o (i_key j)) by (split; [apply (wf_of j Hj)|exists g, v; auto]). apply b_present in P as (i & Hi & Eo & Ek); try assumption.
        apply (H j Hj Hlt) in Hi; [congruence| |exact Eo]. intros e He Hoe. pose proof (wf_of e He) as WTe. pose proof (wf_of j Hj) as WTj.
        assert (PE : present b (i_owner e) (i_key e)) by (apply b_present; [exact (HO e He)|apply WTe|exists e; auto]). destruct PE as (_ & ge & ve & Hge & Hse).
        specialize (Hmin _ Hse). cbn [fst] in Hmin. assert (WTe' : wf_tuple (i_owner e) (i_key e) ge) by (split; [apply WTe|split; [apply WTe|exact Hge]]).
        rewrite (proj1 (ik_built _ _ _ WTe')) in Hmin. specialize (Hmin Hoe). rewrite leb33 in Hmin by apply newIndexKey_length. rewrite !newIndexKey_num in Hmin by assumption. apply Z.leb_le in Hmin.
        apply knum_le; [apply WTj|apply WTe|]. unfold num in Hmin. destruct WTj as (_ & _ & G1). clear -Hmin G1 Hge. revert Hmin. generalize (knum (i_owner j) (i_key j)) (knum (i_owner e) (i_key e)). intros x y. unfold is_u64 in *. lia.
  Qed.
  Let part := DiskProofs.part is.
  Lemma s_get o k g : wf_tuple o k g -> o < max64 -> get b (newIndexKey o k g) = option_map (fun j => i_item j ++ i_data j) (version is o k g).
  Proof.
    intros WT Ho. destruct (version is o k g) as [j|] eqn:EV; cbn [option_map].
    - apply get_In; [apply b_opened|]. apply (proj2 (b_stored o k g _ WT Ho)). apply version_some in EV as (a & c & E & A & B). exists a, j, c. auto.
    - destruct (get b (newIndexKey o k g)) as [v|] eqn:EG; [|reflexivity]. exfalso. apply get_In in EG; [|apply b_opened]. apply (proj1 (b_stored o k g v WT Ho)) in EG as (a & j & c & E & A & _ & B).
      assert (X : version is o k g = Some j) by (apply version_some; exists a, c; auto). congruence.
  Qed.
  Lemma part_seen f o lo hi fuel : o < max64 -> is_u64 o -> wf_Key lo -> KOffset lo = 0 -> wf_Key hi -> (forall k, wf_Key k -> f k = true <-> key_le lo k /\ key_le k hi) ->
    separate is o hi -> match part f o with [] => False | i :: _ => KType (i_key i) = KType lo /\ ObjectID (i_key i) = ObjectID lo end ->
    (length b + 1 < fuel)%nat -> range_items fuel b (mkRangeFrom b max64 o lo hi) = Ok (map row (seen_of is o (part f o))).
  Proof.
    intros Ho Hu WL L0 WH Hf HS HH Hfuel. destruct (part f o) as [|i0 l] eqn:EP; [destruct HH|]. destruct HH as [T1 T2].
    assert (E0 : mkKey (ObjectID lo) (KType lo) 0 = lo) by (clear - L0; destruct lo as [k1 k2 k3]; cbn [ObjectID KType KOffset] in *; rewrite L0; reflexivity).
    assert (KB : keys_between b o (mkKey (ObjectID lo) (KType lo) 0) hi (map i_key (i0 :: l))) by (rewrite E0, <- EP; apply part_keys; assumption).
    pose proof (range_exact b max64 o lo hi fuel (map i_key (i0 :: l)) (keyed (fun k d acc => Ok (acc ++ [(k, d)], false))) [] b_opened Hu Ho WL WH max64_u64 (b_data o Ho Hu) (s_nomax o Ho Hu) (s_nowrap o hi Ho Hu HS) (or_introl eq_refl) KB Hfuel) as H.
    cbn [map] in H. rewrite T1, T2, !Z.eqb_refl in H. cbn [andb] in H. destruct H as (g & v & (Hst & Hg & Hsel) & HR).
    assert (Hin : forall i, In i (i0 :: l) -> In i (tree_items is o)) by (intros i Hi; rewrite <- EP in Hi; apply filter_In in Hi; apply Hi).
    assert (g = i_gen i0).
    { destruct (b_latest i0 o (Hin i0 (or_introl eq_refl))) as (A & B & C). specialize (C g v Hg Hst). destruct Hsel as [[Hsel _]|[_ Hsel]]; [|specialize (Hsel (i_gen i0) _ B A); lia]. unfold is_u64, max64 in *. assert (g = 2^64 - 1) by lia. lia. }
    subst g. unfold range_items. rewrite HR. clear HR Hsel Hst KB. unfold seen_of.
    assert (G : forall xs acc, (forall i, In i xs -> In i (tree_items is o)) -> 
      fold_range (keyed (fun k d acc => Ok (acc ++ [(k, d)], false))) (newIndexKey o hi max64) (yields b o (i_gen i0) (map i_key xs)) acc = Ok (acc ++ map row (same_generation is o (i_gen i0) xs))).
    { induction xs as [|i xs IH]; intros acc HX; cbn [map yields same_generation]; [cbn [fold_range]; rewrite app_nil_r; reflexivity|].
      destruct (tree_in is i o (HX i (or_introl eq_refl))) as [Hi Eo]. pose proof (wf_of i Hi) as WT. rewrite s_get; [|split; [exact Hu|split; [apply WT|exact Hg]]|exact Ho].
      destruct (version is o (i_key i) (i_gen i0)) as [j|] eqn:EV; cbn [option_map]; [|cbn [fold_range map]; rewrite app_nil_r; reflexivity].
      destruct (version_in _ _ _ _ _ EV) as (J1 & J2 & J3 & J4). cbn [fold_range]. rewrite (proj2 (HV j J1)). cbn [rbind]. unfold keyed at 1. cbn [r_key rbind].
      rewrite IH by (intros x Hx; apply HX; right; exact Hx). rewrite <- app_assoc. cbn [app map]. unfold row at 2. rewrite J2, J3, J4. reflexivity. }
    apply (G (i0 :: l) []). exact Hin.
  Qed.
  Lemma group_seen_any o t id fuel : o < max64 -> is_u64 o -> is_u64 id -> is_u8 t -> (group is o t id <> [] -> separate is o (mkKey id t (2^64 - 1))) -> (length b + 1 < fuel)%nat ->
    range_items fuel b (RangeAll b max64 o t id) = Ok (map row (seen_group is o t id)).
  Proof.
    intros Ho Hu Hi H8 Ht Hfuel. assert (Eu : u8 t = t) by (unfold u8; apply Z.mod_small; exact H8).
    unfold RangeAll, KF2, KL2. rewrite Eu. unfold seen_group. change (group is o t id) with (part (kin t id) o).
    destruct (part (kin t id) o) as [|i0 l] eqn:EP.
    - destruct fuel as [|fuel]; [lia|]. apply range_none; [exact b_opened|exact Hu|exact Ho|apply wf_lo; assumption|exact (b_data o Ho Hu)|intros k; apply s_types; assumption|].
      intros k HP HT HI. cbn [KType ObjectID] in *. pose proof (part_keys (kin t id) o (mkKey id t 0) (mkKey id t max64) Ho Hu (kin_between t id)) as [_ KB]. fold part in KB. rewrite EP in KB. cbn [map] in KB.
      apply (KB k). split; [exact HP|]. apply kin_between; [apply HP|]. unfold kin. lia.
    - assert (G2 : separate is o (mkKey id t (2^64 - 1))) by (apply Ht; change (group is o t id) with (part (kin t id) o); rewrite EP; discriminate).
      rewrite <- EP. apply part_seen; try assumption; [apply wf_lo; assumption|reflexivity|apply wf_hi; assumption|apply kin_between|].
      rewrite EP. assert (H0 : In i0 (part (kin t id) o)) by (rewrite EP; left; reflexivity). apply filter_In in H0 as [_ H0]. unfold kin in H0. cbn [KType ObjectID]. lia.
  Qed.
  Lemma group_seen o t id fuel : o < max64 -> is_u64 o -> is_u64 id -> (t = 84 \/ t = 108 \/ t = 228) -> (length b + 1 < fuel)%nat ->
    range_items fuel b (RangeAll b max64 o t id) = Ok (map row (seen_group is o t id)).
  Proof.
    intros Ho Hu Hi Ht Hfuel. apply group_seen_any; try assumption; [unfold is_u8; lia|]. exact (proj1 (proj2 (proj2 HD)) o t id Ht).
  Qed.
  Lemma subvol_seen fuel : (length b + 1 < fuel)%nat -> range_items fuel b (Subvolumes b max64) = Ok (map row (seen_subvols is)).
  Proof.
    intros Hfuel. unfold Subvolumes. change RootTreeObjectID with 1. change (KF2 RootItemKey FirstFreeObjectID) with subvol_first. change (KL2 RootItemKey LastFreeObjectID) with subvol_last.
    assert (Hu : is_u64 1) by (unfold is_u64; lia). assert (Ho : 1 < max64) by (unfold max64; lia). unfold seen_subvols. change (subvols is) with (part vin 1).
    assert (HN : match part vin 1 with i :: _ => ObjectID (i_key i) <> 256 | [] => True end -> range_items fuel b (mkRangeFrom b max64 1 subvol_first subvol_last) = Ok []).
    { intros HN. destruct fuel as [|fuel]; [lia|]. apply range_none; [exact b_opened|exact Hu|exact Ho|exact wf_svf|exact (b_data 1 Ho Hu)|intros k; apply s_types; assumption|].
      intros k HP HT HI. change (KType subvol_first) with 132 in HT. change (ObjectID subvol_first) with 256 in HI. pose proof (part_keys vin 1 _ _ Ho Hu vin_between) as [_ KB]. fold part in KB.
      assert (Hk : In k (map i_key (part vin 1))) by (apply (KB k); split; [exact HP|]; apply vin_between; [apply HP|]; unfold vin; lia).
      assert (HSo : isorted (part vin 1)) by apply isorted_filter, tree_sorted. assert (HF : forall i, In i (part vin 1) -> vin (i_key i) = true) by (intros i Hi; apply filter_In in Hi; apply Hi).
      destruct (part vin 1) as [|i0 l]; [destruct Hk|]. pose proof (HF i0 (or_introl eq_refl)) as H0. unfold vin in H0. destruct Hk as [<-|Hk]; [lia|]. apply in_map_iff in Hk as (i & <- & Hi).
      inversion HSo as [|? ? _ HF2]; subst. rewrite Forall_forall in HF2. specialize (HF2 i Hi). unfold key_lt in HF2. lia. }
    destruct (part vin 1) as [|i0 l] eqn:EP; [apply HN; exact Logic.I|]. destruct (Z.eqb_spec (ObjectID (i_key i0)) 256) as [E|E]; [|apply HN; exact E]. clear HN.
    assert (G2 : separate is 1 (mkKey (2^64 - 256) 132 (2^64 - 1))) by (apply (proj2 (proj2 (proj2 HD))); change (subvols is) with (part vin 1); rewrite EP; discriminate).
    rewrite <- EP. apply part_seen; try assumption; [exact wf_svf|reflexivity|exact wf_svl|exact vin_between|].
    rewrite EP. assert (H0 : In i0 (part vin 1)) by (rewrite EP; left; reflexivity). apply filter_In in H0 as [_ H0]. unfold vin in H0. change (KType subvol_first) with 132. change (ObjectID subvol_first) with 256. lia.
  Qed.
  Lemma phys_seen fuel l p : (length b + 1 < fuel)%nat -> mapped cs l = Ok p -> (' (_, q) <- Physical fuel b max64 None l ;; Ok q) = Ok p.
  Proof.
    intros Hfuel HP. unfold Physical. destruct HC as [F2 HDj].
    assert (H3 : is_u64 3) by (unfold is_u64; lia). assert (H3m : 3 < max64) by (unfold max64; lia).
    rewrite (build_items fuel b max64 (map row (seen_group is 3 228 256))).
    2:{ apply group_seen; [exact H3m|exact H3|unfold is_u64; lia|right; right; reflexivity|exact Hfuel]. }
    rewrite (stripes_fold is HW HV HO _ cs []); [|exact F2|intros i Hi; apply (seen_in _ _ _ _ Hi)]. cbn [rbind app].
    unfold mapped, chunk_of in HP. destruct (List.find _ cs) as [[f c]|] eqn:EF; [|discriminate].
    assert (HSplit : exists pre post, cs = pre ++ (f, c) :: post) by (apply find_some in EF as [Hin _]; apply in_split; exact Hin).
    apply find_some in EF as [Hin Hlog]. cbn [fst snd] in Hlog. destruct HSplit as (pre & post & Ecs).
    assert (HS : StronglySorted Z.lt (map fst cs)).
    { assert (HSg : isorted (seen_group is 3 228 256)) by (unfold seen_group, seen_of; destruct (group is 3 228 256) eqn:EG; [constructor|]; apply same_sorted; rewrite <- EG; apply isorted_filter, tree_sorted).
      assert (HK : forall i, In i (seen_group is 3 228 256) -> KType (i_key i) = 228 /\ ObjectID (i_key i) = 256) by (intros i Hi; destruct (seen_in _ _ _ _ Hi) as (_ & _ & x & Hx & ->); apply filter_In in Hx as [_ Hx]; lia).
      clear -F2 HSg HK. induction F2 as [|i x l cs' C F2 IH]; cbn [map]; [constructor|]. inversion HSg as [|? ? HSg' HF]; subst. rewrite Forall_forall in HF.
      constructor; [apply IH; [exact HSg'|intros j Hj; apply HK; right; exact Hj]|]. apply Forall_forall. intros z Hz. apply in_map_iff in Hz as (y & <- & Hy).
      destruct (Forall2_in_r _ _ _ F2 y Hy) as (j & Hj & C'). specialize (HF j Hj). destruct (HK i (or_introl eq_refl)), (HK j (or_intror Hj)).
      unfold key_lt in HF. rewrite (proj1 C), (proj1 C'). lia. }
    destruct (Forall2_in_r _ _ _ F2 _ Hin) as (i & Hi & C1 & C2 & C3 & C4). cbn [fst snd] in *.
    assert (Hif : In i is) by apply (seen_in _ _ _ _ Hi). pose proof (wf_of i Hif) as (_ & (_ & _ & Wf) & _). rewrite <- C1 in Wf.
    rewrite Ecs, map_app. cbn [map]. rewrite Physical_in_spec.
    - destruct (ch_stripes c) as [|s ss] eqn:Es; [discriminate|]. injection HP as <-. cbn [rbind]. unfold entry_of; cbn [sm_devID sm_offset sm_logical fst snd]. unfold first_stripe. rewrite Es. cbn [hd].
      f_equal. f_equal. destruct C4 as [D1 D2]. unfold u64, is_u64 in *. rewrite (Z.mod_small (_ + l)) by lia. rewrite Z.mod_small by lia. lia.
    - change (entry_of (f, c) :: map entry_of post) with (map entry_of ((f, c) :: post)). rewrite <- map_app, <- Ecs. clear -HS.
      induction cs as [|[x y] l' IH]; [constructor|]. cbn [map fst] in *. apply StronglySorted_inv in HS as [HS HF]. constructor; [apply IH; exact HS|]. rewrite Forall_forall in *.
      intros z Hz. apply in_map_iff in Hz as ([x' y'] & <- & Hin). cbn [entry_of sm_logical fst]. apply HF. apply in_map_iff. exists (x', y'); auto.
    - cbn [entry_of sm_logical fst]. lia.
    - intros z Hz. apply in_map_iff in Hz as ([x' y'] & <- & Hz). cbn [entry_of sm_logical fst]. rewrite Ecs in HDj. clear -HDj Hz Hlog.
      induction pre as [|x pre IH]; cbn [app disjoint] in HDj; [|apply IH; apply HDj]. destruct HDj as [HDj _]. specialize (HDj _ Hz). cbn [fst snd] in HDj. lia.
  Qed.
End Seen.

(** Property theorems C17-C23: index queries. *)
From Verif Require Import Go GoProofs Layout LayoutProofs KeyFmt KeyProofs Bolt Store StoreProofs SpecStore RangeProofs.
From Coq Require Import ZifyBool ZifyNat ZifyN Sorted.
Ltac Zify.zify_post_hook ::= Z.div_mod_to_equations.

(** ** concrete indices for the examples *)
Definition itemv (data : list byte) : list byte := repeat x00 21 ++ le_encode 4 (zlen data) ++ data.
Definition mkb (l : list (Z * Key * Z * list byte)) : bucket :=
  fold_left (fun b '(o, k, g, v) => put b (newIndexKey o k g) v) l [(metadataKey, newIndexMetadata (mkOptions false 16384 (repeat x07 16) 0 false))].
Lemma mkb_opened l : (forall o k g v, In (o, k, g, v) l -> newIndexKey o k g <> metadataKey) -> opened (mkb l).
Proof.
  unfold mkb. set (m := newIndexMetadata _). clearbody m.
  assert (H0 : opened [(metadataKey, m)]).
  { split; [split; [cbn; auto|repeat constructor]|exists m; left; reflexivity]. }
  revert H0. generalize [(metadataKey, m)] as b. induction l as [|[[[o k] g] v] l IH]; intros b [W [m' Hm]] H; [split; eauto|].
  cbn [fold_left]. apply IH.
  - destruct (put_spec b (newIndexKey o k g) v W (newIndexKey_length _ _ _)) as [W' HI]. split; [exact W'|]. exists m'. apply HI.
    right. split; [exact Hm|]. cbn [fst]. intros E. apply (H o k g v); [left; reflexivity|symmetry; exact E].
  - intros o' k' g' v' Hin. apply (H o' k' g' v'). right; exact Hin.
Qed.
(** decidable conditions on concrete indices *)
Definition opened_b (b : bucket) : bool :=
  forallb (fun e => Nat.eqb (length (fst e)) 33) b &&
  (fix srt (b : bucket) := match b with [] => true | e :: r => match r with [] => true | e' :: _ => bytes_ltb (fst e) (fst e') end && srt r end) b &&
  existsb (fun e => bytes_eqb (fst e) metadataKey) b.
Lemma opened_ok b : opened_b b = true -> opened b.
Proof.
  unfold opened_b. rewrite !andb_true_iff. intros [[H1 H2] H3]. split; [split|].
  - clear -H2. induction b as [|e [|e' r] IH]; [exact I|cbn; auto|]. apply andb_true_iff in H2 as [A B].
    split; [|apply IH; exact B]. unfold bytes_ltb in A. unfold klt. destruct (bytes_cmp _ _); [discriminate|reflexivity|discriminate].
  - rewrite forallb_forall in H1. apply Forall_forall. intros e He. apply Nat.eqb_eq. apply H1; exact He.
  - apply existsb_exists in H3 as ([k m] & Hin & E). apply bytes_eqb_eq in E. cbn [fst] in E. subst. eauto.
Qed.

(** ** C17 *)
(** with the default (maximum) generation: the latest version, or nothing iff there is none *)
Theorem C17_latest_partial : forall b o k, opened b -> wf_Key k -> is_u64 o ->
  ~ (o = max64 /\ KType k = 255 /\ LastFreeObjectID < ObjectID k) ->
  (exists g v, FindItem b max64 o k = Ok (Some v) /\ latest b o k g v) \/
  (FindItem b max64 o k = Ok None /\ ~ present b o k).
Proof.
  intros b o k Op Hk Ho Hno. unfold FindItem.
  destruct (find_selected b o k max64 Op) as [(g & v & -> & Hst & Hg & Hsel)|[-> H]]; try assumption.
  - unfold wf_tuple. auto using max64_u64.
  - left. exists g, v. split; [reflexivity|]. split; [exact Hst|]. split; [exact Hg|].
    intros g' v' Hg' Hst'. destruct Hsel as [[H _]|[_ H]]; [unfold is_u64, max64 in *; lia|eauto].
  - right. split; [reflexivity|exact H].
Qed.
(** for every index generation: what is actually selected *)
Theorem C17_selected_partial : forall b gen o k, opened b -> wf_Key k -> is_u64 o -> is_u64 gen ->
  ~ (o = max64 /\ KType k = 255 /\ LastFreeObjectID < ObjectID k) ->
  (exists g v, FindItem b gen o k = Ok (Some v) /\ selected_version b o k gen g v) \/
  (FindItem b gen o k = Ok None /\ ~ present b o k).
Proof.
  intros b gen o k Op Hk Ho Hgen Hno. unfold FindItem.
  destruct (find_selected b o k gen Op) as [(g & v & -> & Hsel)|[-> H]]; try assumption.
  - unfold wf_tuple. auto.
  - left. exists g, v. split; [reflexivity|exact Hsel].
  - right. split; [reflexivity|exact H].
Qed.
(** the documented version is returned when some version has exactly the index
    generation, or all are older, or all are newer *)
Theorem C17_documented_partial : forall b gen o k, opened b -> wf_Key k -> is_u64 o -> is_u64 gen ->
  ~ (o = max64 /\ KType k = 255 /\ LastFreeObjectID < ObjectID k) ->
  present b o k ->
  (exists v, stored b o k gen v) \/ (forall g v, is_u64 g -> stored b o k g v -> g < gen) \/ (forall g v, is_u64 g -> stored b o k g v -> gen < g) ->
  exists g v, FindItem b gen o k = Ok (Some v) /\ documented_version b o k gen g v.
Proof.
  intros b gen o k Op Hk Ho Hgen Hno Hp Hc.
  destruct (C17_selected_partial b gen o k Op Hk Ho Hgen Hno) as [(g & v & HF & Hst & Hg & Hsel)|[_ H]]; [|contradiction].
  exists g, v. split; [exact HF|]. split; [exact Hst|]. split; [exact Hg|]. destruct Hsel as [[H1 H2]|[H1 H2]].
  - destruct Hc as [[v' Hv']|[Hc|Hc]].
    + assert (g = gen) by (specialize (H2 gen v' Hgen Hv'); lia). subst g. left. split; [lia|]. intros; lia.
    + specialize (Hc g v Hg Hst). lia.
    + right. split; [exact (Hc g v Hg Hst)|]. intros g' v' Hg' Hst'. apply (H2 g' v' Hg' Hst'). specialize (Hc g' v' Hg' Hst'). lia.
  - left. split; [lia|]. intros g' v' Hg' Hst' _. exact (H2 g' v' Hg' Hst').
Qed.
(** versions 3 and 7, index generation 5: version 7 is returned, the documented one is 3 *)
Definition b17 := mkb [(5, mkKey 256 1 0, 3, itemv [x03]); (5, mkKey 256 1 0, 7, itemv [x07])].
Lemma documented_unique b o k gen g v g' v' : wf_bucket b -> documented_version b o k gen g v -> documented_version b o k gen g' v' -> v = v'.
Proof.
  intros W (H1 & H2 & H3) (H1' & H2' & H3').
  assert (g = g').
  { destruct H3 as [[A B]|[A B]], H3' as [[A' B']|[A' B']].
    - specialize (B g' v' H2' H1' A'). specialize (B' g v H2 H1 A). lia.
    - specialize (B' g v H2 H1). lia.
    - specialize (B g' v' H2' H1'). lia.
    - specialize (B g' v' H2' H1'). specialize (B' g v H2 H1). lia. }
  subst. exact (key_unique b _ v v' W H1 H1').
Qed.
Theorem C17_refuted : exists b gen o k, opened b /\ wf_Key k /\ is_u64 o /\ is_u64 gen /\ o < 2^64 - 1 /\
  present b o k /\ ~ exists g v, FindItem b gen o k = Ok (Some v) /\ documented_version b o k gen g v.
Proof.
  exists b17, 5, 5, (mkKey 256 1 0). assert (Op : opened b17) by (apply opened_ok; vm_compute; reflexivity).
  assert (Wk : wf_Key (mkKey 256 1 0)) by (unfold wf_Key, is_u64, is_u8; cbn; lia).
  assert (H3 : stored b17 5 (mkKey 256 1 0) 3 (itemv [x03])) by (unfold stored; vm_compute; auto).
  repeat (split; [first [assumption|unfold is_u64; lia]|]).
  split; [split; [exact Wk|]; exists 3, (itemv [x03]); split; [unfold is_u64; lia|exact H3]|].
  intros (g & v & HF & HD).
  assert (E : FindItem b17 5 5 (mkKey 256 1 0) = Ok (Some (itemv [x07]))) by (vm_compute; reflexivity).
  rewrite E in HF. injection HF as HF.
  assert (HD' : documented_version b17 5 (mkKey 256 1 0) 5 3 (itemv [x03])).
  { split; [exact H3|]. split; [unfold is_u64; lia|]. left. split; [lia|]. intros g' v' Hg' Hst Hle.
    unfold stored in Hst. 
    assert (Hg2 : forall e, In e b17 -> ik_Owner (fst e) = 5 -> ik_Generation (fst e) = 3 \/ ik_Generation (fst e) = 7).
    { intros e He. vm_compute in He. destruct He as [<-|[<-|[<-|[]]]]; vm_compute; auto. intros H; discriminate H. }
    destruct (ik_built 5 (mkKey 256 1 0) g') as (A & _ & _ & _ & B & _); [unfold wf_tuple, is_u64 in *; cbn; auto; split; [lia|split; [exact Wk|exact Hg']]|].
    specialize (Hg2 _ Hst A). cbn [fst] in Hg2. rewrite B in Hg2. lia. }
  pose proof (documented_unique _ _ _ _ _ _ _ _ (proj1 Op) HD HD') as EE. subst v. vm_compute in EE. discriminate.
Qed.
(** the hypotheses of the partial theorems are met *)
Example C17_ex : opened b17 /\ present b17 5 (mkKey 256 1 0) /\ FindItem b17 max64 5 (mkKey 256 1 0) = Ok (Some (itemv [x07])).
Proof.
  split; [apply opened_ok; vm_compute; reflexivity|]. split; [|vm_compute; reflexivity].
  split; [unfold wf_Key, is_u64, is_u8; cbn; lia|]. exists 3, (itemv [x03]). split; [unfold is_u64; lia|unfold stored; vm_compute; auto].
Qed.
Print Assumptions C17_latest_partial. Print Assumptions C17_selected_partial. Print Assumptions C17_documented_partial. Print Assumptions C17_refuted.

(** ** C18 *)
Theorem C18_no_abort_partial : forall b gen o k, opened b -> wf_Key k -> is_u64 o -> is_u64 gen ->
  ~ (o = 2^64 - 1 /\ KType k = 255 /\ 2^64 - 256 < ObjectID k) ->
  exists r, FindItem b gen o k = Ok r.
Proof.
  intros b gen o k Op Hk Ho Hgen Hno.
  destruct (C17_selected_partial b gen o k Op Hk Ho Hgen) as [(g & v & H & _)|[H _]]; [|eauto|eauto].
  unfold max64, LastFreeObjectID. exact Hno.
Qed.
(** the exception is real: the metadata record is not the last possible key *)
Theorem C18_refuted : exists b gen o k, opened b /\ wf_Key k /\ is_u64 o /\ is_u64 gen /\ FindItem b gen o k = Panic.
Proof.
  exists (mkb []), max64, max64, (mkKey max64 255 0). split; [apply opened_ok; vm_compute; reflexivity|].
  repeat (split; [first [exact max64_u64|unfold wf_Key, is_u64, is_u8, max64; cbn; lia]|]). vm_compute. reflexivity.
Qed.
(** in every index without entries behind the metadata record, exactly the
    excluded keys abort *)
Theorem C18_abort_iff_partial : forall b gen o k, opened b -> wf_Key k -> is_u64 o -> is_u64 gen ->
  (forall e, In e b -> bytes_leb (fst e) metadataKey = true) ->
  (FindItem b gen o k = Panic <-> (o = 2^64 - 1 /\ KType k = 255 /\ 2^64 - 256 < ObjectID k)).
Proof.
  intros b gen o k Op Hk Ho Hgen Hlast. split.
  - intros HP. destruct (Z.eq_dec o (2^64 - 1)) as [E1|E1]; destruct (Z.eq_dec (KType k) 255) as [E2|E2];
      destruct (Z_lt_dec (2^64 - 256) (ObjectID k)) as [E3|E3]; try (split; [|split]; assumption);
      destruct (C18_no_abort_partial b gen o k Op Hk Ho Hgen ltac:(lia)) as [r Hr]; rewrite Hr in HP; discriminate.
  - intros (E1 & E2 & E3). unfold FindItem, find. destruct Op as [W _].
    pose proof (cur_seek b (newIndexKey o k gen) W (newIndexKey_length _ _ _)) as H.
    destruct (cur_entry _) as [e|]; [|reflexivity]. exfalso. destruct H as (Hin & Hle & _). specialize (Hlast e Hin).
    rewrite leb33 in Hlast by (try apply newIndexKey_length; exact (wf_len b e W Hin)).
    rewrite newIndexKey_num in Hle by (unfold wf_tuple; auto). rewrite metadataKey_num in Hlast. unfold en in Hle.
    unfold num, knum, KL0, LastFreeObjectID, max64, wf_Key, is_u64, is_u8 in *. cbn [ObjectID KType KOffset] in Hlast. lia.
Qed.
Print Assumptions C18_no_abort_partial. Print Assumptions C18_refuted. Print Assumptions C18_abort_iff_partial.

(** ** C19 *)
Lemma wf_KF2 t id : is_u8 t -> is_u64 id -> wf_Key (KF2 t id).
Proof. unfold wf_Key, KF2, u8, is_u8, is_u64; cbn. intros. rewrite Z.mod_small by lia. lia. Qed.
Lemma wf_KL2 t id : is_u8 t -> is_u64 id -> wf_Key (KL2 t id).
Proof. unfold wf_Key, KL2, u8, is_u8, is_u64, max64; cbn. intros. rewrite Z.mod_small by lia. lia. Qed.
Lemma between_group o t id k : is_u8 t -> is_u64 id -> wf_Key k ->
  (knum o (mkKey id t 0) <= knum o k /\ knum o k <= knum o (mkKey id t max64)) <-> (KType k = t /\ ObjectID k = id).
Proof. intros Ht Hi (H1 & H2 & H3). unfold knum, is_u8, is_u64, max64 in *; cbn [ObjectID KType KOffset]. lia. Qed.

(** [offs]: the offsets stored for (owner, type, object id), ascending *)
Definition offsets_of (b : bucket) (o t id : Z) (offs : list Z) : Prop :=
  StronglySorted Z.lt offs /\ forall f, In f offs <-> present b o (mkKey id t f).
(** the iteration stops at the first offset that has no version of the same
    generation as the first item *)
Fixpoint same_gen_prefix (b : bucket) (o t id g : Z) (offs : list Z) (out : list (list byte * list byte)) : Prop :=
  match offs with
  | [] => out = []
  | f :: r => (exists v out', stored b o (mkKey id t f) g v /\ out = (newIndexKey o (mkKey id t f) g, vdata v) :: out' /\ same_gen_prefix b o t id g r out') \/
              ((forall v, ~ stored b o (mkKey id t f) g v) /\ out = [])
  end.
Lemma offs_keys b o t id offs : is_u8 t -> is_u64 id -> offsets_of b o t id offs ->
  keys_between b o (mkKey id t 0) (mkKey id t max64) (map (fun f => mkKey id t f) offs).
Proof.
  intros Ht Hi [Hs Hin]. apply keys_between_of; [unfold wf_Key; cbn; split; [exact Hi|split; [exact Ht|unfold is_u64, max64; lia]]..|].
  split.
  - clear Hin. induction Hs as [|f l Hs IH F]; cbn [map]; constructor; [exact IH|]. rewrite Forall_forall in *.
    intros x Hx. apply in_map_iff in Hx as (f' & <- & Hf'). specialize (F f' Hf'). unfold knum; cbn [ObjectID KType KOffset]. lia.
  - intros k. rewrite in_map_iff. split.
    + intros (f & <- & Hf). apply Hin in Hf. split; [exact Hf|]. apply between_group; try assumption; [apply Hf|split; reflexivity].
    + intros (Hp & Hr). apply between_group in Hr as [E1 E2]; try assumption; [|apply Hp].
      exists (KOffset k). destruct k as [k1 k2 k3]; cbn [ObjectID KType KOffset] in *. subst. split; [reflexivity|]. apply Hin. exact Hp.
Qed.
Lemma yields_prefix b o t id g offs : wf_bucket b ->
  same_gen_prefix b o t id g offs (map (fun e => (fst e, vdata (snd e))) (yields b o g (map (fun f => mkKey id t f) offs))).
Proof.
  intros W. induction offs as [|f offs IH]; [reflexivity|]. cbn [map yields same_gen_prefix].
  destruct (get b (newIndexKey o (mkKey id t f) g)) as [v|] eqn:G.
  - left. exists v. eexists. apply get_In in G; [|exact W]. split; [exact G|]. split; [reflexivity|exact IH].
  - right. split; [|reflexivity]. rewrite get_None in G. exact G.
Qed.
Lemma yields_ok b o g ks : wf_bucket b -> is_u64 g -> (forall k, In k ks -> wf_Key k) -> data_ok b o ->
  forall ik v, In (ik, v) (yields b o g ks) -> exists d, valueData v = Ok d.
Proof.
  intros W Hg HK ND. induction ks as [|k ks IH]; intros ik v Hin; [destruct Hin|]. cbn [yields] in Hin.
  destruct (get b (newIndexKey o k g)) as [v'|] eqn:G; [|destruct Hin]. destruct Hin as [[= <- <-]|Hin].
  - apply get_In in G; [|exact W]. exact (ND k g v' (HK k (or_introl eq_refl)) Hg G).
  - apply (IH (fun k H => HK k (or_intror H)) ik v Hin).
Qed.
Lemma RangeAll_exact b gen o t id offs fuel :
  opened b -> is_u64 o -> o < max64 -> is_u8 t -> is_u64 id -> (t < 255 \/ id <= LastFreeObjectID) -> is_u64 gen ->
  data_ok b o -> no_max_gen b o -> no_wrap b o (mkKey id t max64) ->
  (gen = max64 \/ ~ present b o (mkKey id t max64)) ->
  offsets_of b o t id offs -> (length b + 1 < fuel)%nat ->
  match offs with
  | [] => range_collect fuel b (RangeAll b gen o t id) = Ok []
  | f :: _ => exists g v, selected_version b o (mkKey id t f) gen g v /\
      range_collect fuel b (RangeAll b gen o t id) =
        Ok (map (fun e => (fst e, vdata (snd e))) (yields b o g (map (fun f => mkKey id t f) offs)))
  end.
Proof.
  intros Op Ho Hom Ht Hi Htid Hgen ND NM NA Hl HO Hfuel.
  pose proof (offs_keys b o t id offs Ht Hi HO) as KB. pose proof Op as [W _].
  assert (Eu : u8 t = t) by (unfold u8, is_u8 in *; apply Z.mod_small; lia).
  unfold RangeAll, range_collect. unfold KF2, KL2. rewrite Eu.
  assert (WF : wf_Key (mkKey id t 0)) by (unfold wf_Key; cbn; split; [exact Hi|split; [exact Ht|unfold is_u64; lia]]).
  assert (WL : wf_Key (mkKey id t max64)) by (unfold wf_Key; cbn; auto using max64_u64).
  pose proof (range_exact b gen o (mkKey id t 0) (mkKey id t max64) fuel (map (fun f => mkKey id t f) offs) collect_body []
      Op Ho Hom WF WL Hgen ND NM NA Hl KB Hfuel) as H.
  destruct offs as [|f offs].
  - cbn [map] in H. destruct (Z.eq_dec t 255) as [E|E].
    + destruct (Z.eq_dec id LastFreeObjectID) as [E'|E'].
      * (* the group of KL0 itself *)
        subst. unfold range_for. destruct (range_start b gen o (mkKey LastFreeObjectID 255 0) (mkKey LastFreeObjectID 255 max64) Op Ho Hom WF Hgen ND)
          as [(k & g & v & d & _ & Hk & Hg & Hst & _ & _ & [HG|[HE ->]])|[_ ->]].
        -- exfalso. destruct HG as (Hp & A & B & _). cbn [KType ObjectID] in A, B. destruct HO as [_ HO].
           apply (HO (KOffset k)). destruct k; cbn in *; subst; exact Hp.
        -- exfalso. apply (HE KL0); [|reflexivity|reflexivity]. split; [exact wf_KL0|eauto].
        -- cbn [rbind]. destruct fuel; [lia|]. reflexivity.
      * apply H. unfold key_lt, KL0; cbn [ObjectID KType KOffset]. lia.
    + apply H. unfold key_lt, KL0; cbn [ObjectID KType KOffset]. unfold is_u8 in *. lia.
  - cbn [map] in H. cbn [KType ObjectID] in H. rewrite !Z.eqb_refl in H. cbn [andb] in H. destruct H as (g & v & Hsel & H).
    exists g, v. split; [exact Hsel|]. rewrite H. rewrite fold_collect; [reflexivity|].
    apply (yields_ok b o g _ W (proj1 (proj2 Hsel))); [|exact ND].
    intros k Hk. change (mkKey id t f :: map (fun f => mkKey id t f) offs) with (map (fun f => mkKey id t f) (f :: offs)) in Hk.
    apply in_map_iff in Hk as (f' & <- & Hf'). apply HO in Hf'. apply Hf'.
Qed.
(** C19, exact behaviour *)
Theorem C19_exact_partial : forall b gen o t id f offs fuel,
  opened b -> is_u64 o -> o < 2^64 - 1 -> is_u8 t -> is_u64 id -> (t < 255 \/ id <= 2^64 - 256) -> is_u64 gen ->
  data_ok b o -> no_max_gen b o -> no_wrap b o (mkKey id t max64) ->
  (gen = max64 \/ ~ present b o (mkKey id t max64)) ->
  offsets_of b o t id (f :: offs) -> (length b + 1 < fuel)%nat ->
  exists g v out, selected_version b o (mkKey id t f) gen g v /\
    range_collect fuel b (RangeAll b gen o t id) = Ok out /\ same_gen_prefix b o t id g (f :: offs) out.
Proof.
  intros b gen o t id f offs fuel Op Ho Hom Ht Hi Htid Hgen ND NM NA Hl HO Hfuel.
  destruct (RangeAll_exact b gen o t id (f :: offs) fuel Op Ho Hom Ht Hi Htid Hgen ND NM NA Hl HO Hfuel) as (g & v & Hsel & HR).
  eexists g, v, _. split; [exact Hsel|]. split; [exact HR|]. apply yields_prefix. apply Op.
Qed.
(** C19 as stated, when everything under (owner, type, object id) was written in
    one generation *)
Theorem C19_uniform_partial : forall b gen o t id g offs fuel,
  opened b -> is_u64 o -> o < 2^64 - 1 -> is_u8 t -> is_u64 id -> (t < 255 \/ id <= 2^64 - 256) -> is_u64 gen ->
  data_ok b o -> no_max_gen b o -> no_wrap b o (mkKey id t max64) ->
  (gen = max64 \/ ~ present b o (mkKey id t max64)) ->
  offsets_of b o t id offs -> (length b + 1 < fuel)%nat ->
  (forall f g' v, is_u64 f -> is_u64 g' -> stored b o (mkKey id t f) g' v -> g' = g) ->
  exists out, range_collect fuel b (RangeAll b gen o t id) = Ok out /\
    Forall2 (fun f e => exists v d, fst e = newIndexKey o (mkKey id t f) g /\ documented_version b o (mkKey id t f) gen g v /\
                                 valueData v = Ok d /\ snd e = sbytes d) offs out.
Proof.
  intros b gen o t id g offs fuel Op Ho Hom Ht Hi Htid Hgen ND NM NA Hl HO Hfuel HU.
  pose proof (RangeAll_exact b gen o t id offs fuel Op Ho Hom Ht Hi Htid Hgen ND NM NA Hl HO Hfuel) as H.
  destruct offs as [|f0 offs].
  { exists []. split; [exact H|constructor]. }
  destruct H as (g' & v & (Hst & Hg' & _) & HR).
  assert (Hf : forall f, In f (f0 :: offs) -> is_u64 f /\ wf_Key (mkKey id t f) /\ exists v, stored b o (mkKey id t f) g v).
  { intros f Hf. apply HO in Hf as (Hwf & g2 & v2 & Hg2 & Hst2). assert (is_u64 f) by apply Hwf. split; [assumption|]. split; [exact Hwf|].
    exists v2. rewrite (HU f g2 v2) in Hst2 by assumption. exact Hst2. }
  assert (g' = g) by (apply (HU f0 g' v); try assumption; apply Hf; left; reflexivity). subst g'.
  eexists. split; [exact HR|]. pose proof Op as [W _].
  clear HR HO Hfuel. revert Hf. generalize (f0 :: offs) as l. clear -HU ND W Hg'.
  induction l as [|f l IH]; intros Hf; [constructor|]. cbn [map yields].
  destruct (Hf f (or_introl eq_refl)) as (Hfu & Hwf & v & Hst). pose proof Hst as G. apply get_In in G; [|exact W]. rewrite G. cbn [map fst snd].
  constructor; [|apply IH; intros f' Hf'; apply Hf; right; exact Hf'].
  destruct (ND _ _ _ Hwf Hg' Hst) as [d Hd]. exists v, d. split; [reflexivity|]. split; [|split; [exact Hd|unfold vdata; cbn [snd]; rewrite Hd; reflexivity]].
  split; [exact Hst|]. split; [exact Hg'|]. destruct (Z_le_dec g gen) as [Hle|Hgt].
  - left. split; [exact Hle|]. intros g2 v2 Hg2 Hst2 _. rewrite (HU f g2 v2) by assumption. lia.
  - right. split; [lia|]. intros g2 v2 Hg2 Hst2. rewrite (HU f g2 v2) by assumption. lia.
Qed.
(** directory 256 has two dir items, the second written in a later generation:
    it is not enumerated *)
Definition b19 := mkb [(5, mkKey 256 84 100, 7, itemv [x01]); (5, mkKey 256 84 200, 9, itemv [x02])].
Theorem C19_refuted : exists b o t id f, opened b /\ is_u64 o /\ o < 2^64 - 1 /\ is_u8 t /\ is_u64 id /\ t < 255 /\
  present b o (mkKey id t f) /\
  exists out, (forall fuel, (3 <= fuel)%nat -> range_collect fuel b (RangeAll b (2^64-1) o t id) = Ok out) /\
    forall ik d, In (ik, d) out -> ik_Offset ik <> f.
Proof.
  exists b19, 5, 84, 256, 200. split; [apply opened_ok; vm_compute; reflexivity|].
  repeat (split; [first [unfold is_u64, is_u8; lia]|]).
  split; [split; [unfold wf_Key, is_u64, is_u8; cbn; lia|]; exists 9, (itemv [x02]); split; [unfold is_u64; lia|unfold stored; vm_compute; auto]|].
  exists [(newIndexKey 5 (mkKey 256 84 100) 7, [x01])]. split.
  - intros fuel Hfuel. do 3 (destruct fuel as [|fuel]; [lia|]). vm_compute. reflexivity.
  - intros ik d [[= <- <-]|[]]. vm_compute. discriminate.
Qed.
(** hypotheses are satisfiable: three dir items of one generation, two owners *)
Definition b19u := mkb [(5, mkKey 256 1 0, 7, itemv [x01]); (5, mkKey 256 84 100, 7, itemv [x01]); (5, mkKey 256 84 200, 7, itemv [x02]);
                        (7, mkKey 0 128 4096, 7, itemv [x09])].
Definition data_ok_b (b : bucket) (o : Z) : bool :=
  forallb (fun e => negb (ik_Owner (fst e) =? o) || match valueData (snd e) with Ok _ => true | _ => false end) b.
Lemma data_ok_ok b o : is_u64 o -> data_ok_b b o = true -> data_ok b o.
Proof.
  intros Ho H k g v Hk Hg Hst. unfold data_ok_b in H. rewrite forallb_forall in H. specialize (H _ Hst). cbn [fst snd] in H.
  destruct (ik_built o k g) as (A & _); [unfold wf_tuple; auto|]. rewrite A, Z.eqb_refl in H. cbn [negb orb] in H.
  destruct (valueData v) as [d| |]; [eauto|discriminate|discriminate].
Qed.
Definition no_max_gen_b (b : bucket) (o : Z) : bool :=
  forallb (fun e => negb (ik_Owner (fst e) =? o) || negb (ik_Generation (fst e) =? max64)) b.
Lemma no_max_gen_ok b o : is_u64 o -> no_max_gen_b b o = true -> no_max_gen b o.
Proof.
  intros Ho H k v Hk Hst. unfold no_max_gen_b in H. rewrite forallb_forall in H. specialize (H _ Hst). cbn [fst] in H.
  destruct (ik_built o k max64) as (A & _ & _ & _ & B & _); [unfold wf_tuple; auto using max64_u64|]. rewrite A, B, !Z.eqb_refl in H. discriminate.
Qed.
Definition key_eqb (a c : Key) : bool := (ObjectID a =? ObjectID c) && (KType a =? KType c) && (KOffset a =? KOffset c).
Definition no_alias_b (b : bucket) (o : Z) : bool :=
  forallb (fun N => negb (o <? ik_Owner (fst N)) ||
     negb (forallb (fun e => negb (o <? ik_Owner (fst e)) || bytes_leb (fst N) (fst e)) b) ||
     forallb (fun e => negb ((ik_Owner (fst e) =? o) && key_eqb (ik_Key (fst e)) (ik_Key (fst N)))) b) b.
Lemma no_alias_ok b o : is_u64 o -> wf_bucket b -> no_alias_b b o = true -> no_alias b o.
Proof.
  intros Ho W H N HN Hlt Hmin g v Hg Hst. unfold no_alias_b in H. rewrite forallb_forall in H. specialize (H N HN).
  replace (o <? ik_Owner (fst N)) with true in H by lia.
  assert (E : forallb (fun e => negb (o <? ik_Owner (fst e)) || bytes_leb (fst N) (fst e)) b = true).
  { apply forallb_forall. intros e He. destruct (o <? ik_Owner (fst e)) eqn:L; [|reflexivity]. cbn. apply Hmin; [exact He|lia]. }
  rewrite E in H. cbn [negb orb] in H. rewrite forallb_forall in H. specialize (H _ Hst). cbn [fst] in H.
  destruct (wf_ik N b W HN) as ((_ & Wk & _) & _). 
  destruct (ik_built o (ik_Key (fst N)) g) as (A & _ & _ & _ & _ & B); [unfold wf_tuple; auto|].
  rewrite A, B in H. unfold key_eqb in H. rewrite !Z.eqb_refl in H. discriminate.
Qed.
Example C19_ex : opened b19u /\ data_ok b19u 5 /\ no_max_gen b19u 5 /\ no_alias b19u 5 /\ offsets_of b19u 5 84 256 [100; 200] /\
  (forall f g' v, is_u64 f -> is_u64 g' -> stored b19u 5 (mkKey 256 84 f) g' v -> g' = 7).
Proof.
  assert (Op : opened b19u) by (apply opened_ok; vm_compute; reflexivity).
  assert (H5 : is_u64 5) by (unfold is_u64; lia).
  split; [exact Op|]. split; [apply data_ok_ok; [exact H5|vm_compute; reflexivity]|]. split; [apply no_max_gen_ok; [exact H5|vm_compute; reflexivity]|].
  split; [apply no_alias_ok; [exact H5|apply Op|vm_compute; reflexivity]|].
  assert (HS : forall f g v, is_u64 f -> is_u64 g -> stored b19u 5 (mkKey 256 84 f) g v -> (f = 100 \/ f = 200) /\ g = 7).
  { intros f g v Hf Hg Hst. destruct (ik_built 5 (mkKey 256 84 f) g) as (A & B & _ & C & D & _).
    { split; [exact H5|split; [|exact Hg]]. unfold wf_Key, is_u64, is_u8 in *; cbn; lia. }
    assert (HA : forall e, In e b19u -> ik_Owner (fst e) = 5 -> ik_Type (fst e) = 84 -> (ik_Offset (fst e) = 100 \/ ik_Offset (fst e) = 200) /\ ik_Generation (fst e) = 7).
    { intros e He. vm_compute in He. destruct He as [<-|[<-|[<-|[<-|[<-|[]]]]]]; vm_compute; auto; intros; discriminate. }
    specialize (HA _ Hst A B). cbn [fst KOffset] in *. rewrite C, D in HA. exact HA. }
  split; [|intros f g v Hf Hg Hst; apply (HS f g v Hf Hg Hst)].
  split; [repeat constructor|]. intros f. split.
  - intros [<-|[<-|[]]]; (split; [unfold wf_Key, is_u64, is_u8; cbn; lia|]).
    + exists 7, (itemv [x01]). split; [unfold is_u64; lia|unfold stored; vm_compute; auto].
    + exists 7, (itemv [x02]). split; [unfold is_u64; lia|unfold stored; vm_compute; auto].
  - intros ((_ & _ & Hf) & g & v & Hg & Hst). destruct (HS f g v Hf Hg Hst) as [[->| ->] _]; cbn; auto.
Qed.
Print Assumptions C19_exact_partial. Print Assumptions C19_uniform_partial. Print Assumptions C19_refuted.

(** ** C20 *)
Theorem C20_terminates_partial : forall (S : Type) b gen o first last (body : Range -> slice -> S -> Res (S * bool)) s fuel,
  opened b -> is_u64 o -> o < 2^64 - 1 -> wf_Key first -> wf_Key last -> is_u64 gen ->
  data_ok b o -> no_max_gen b o -> no_wrap b o last ->
  (forall r d s, r_key r <> None -> exists x, body r d s = Ok x) ->
  (length b + 1 < fuel)%nat ->
  exists s', range_for fuel b (mkRangeFrom b gen o first last) body s = Ok s'.
Proof. intros. apply range_terminates; assumption. Qed.
(** subvolumes 256 and 257 both have a root directory inode written in the same
    generation; file 300 in subvolume 256 has the last item of its tree: reading
    its extents never ends *)
Definition b20 := mkb [(256, mkKey 256 1 0, 7, itemv [x01]); (256, mkKey 300 108 0, 7, itemv [x02]); (257, mkKey 256 1 0, 7, itemv [x03])].
Lemma loop2 {S} b r1 d1 r2 d2 (body : Range -> slice -> S -> Res (S * bool)) :
  HasNext r1 = true -> HasNext r2 = true -> Range_Next b r1 = Ok (r2, d2) -> Range_Next b r2 = Ok (r1, d1) ->
  (forall r d s, r_key r <> None -> exists s', body r d s = Ok (s', false)) -> r_key r1 <> None -> r_key r2 <> None ->
  forall fuel s, range_loop fuel b r1 d1 body s = Timeout /\ range_loop fuel b r2 d2 body s = Timeout.
Proof.
  intros H1 H2 N1 N2 HB K1 K2. induction fuel as [|fuel IH]; intros s; [split; reflexivity|]. cbn [range_loop].
  rewrite H1, H2, N1, N2. destruct (HB r1 d1 s K1) as [s1 ->]. destruct (HB r2 d2 s K2) as [s2 ->]. cbn [rbind]. split; apply IH.
Qed.
Theorem C20_refuted : exists b o id, opened b /\ is_u64 o /\ o < 2^64 - 1 /\ is_u64 id /\ data_ok b o /\ no_max_gen b o /\
  forall fuel, range_collect fuel b (FileExtentItems b (2^64 - 1) o id) = Timeout.
Proof.
  exists b20, 256, 300. split; [apply opened_ok; vm_compute; reflexivity|].
  do 3 (split; [unfold is_u64; lia|]).
  split; [apply data_ok_ok; [unfold is_u64; lia|vm_compute; reflexivity]|].
  split; [apply no_max_gen_ok; [unfold is_u64; lia|vm_compute; reflexivity]|].
  intros fuel. unfold range_collect, range_for.
  set (e := newIndexKey 256 (KL2 108 300) (2^64 - 1)).
  set (r1 := mkRange (Some (newIndexKey 256 (mkKey 300 108 0) 7)) e (itemv [x02])).
  set (r2 := mkRange (Some (newIndexKey 256 (mkKey 256 1 0) 7)) e (itemv [x01])).
  set (d1 := mkSlice [x02] 1). set (d2 := mkSlice [x01] 1).
  assert (HI : FileExtentItems b20 (2^64 - 1) 256 300 = Ok (r1, d1)) by (vm_compute; reflexivity).
  rewrite HI. cbn [rbind]. apply (loop2 b20 r1 d1 r2 d2); [vm_compute; reflexivity|vm_compute; reflexivity|vm_compute; reflexivity|vm_compute; reflexivity| |intros X; cbn [r_key r1] in X; congruence|intros X; cbn [r_key r2] in X; congruence].
  intros r d s Hr. unfold collect_body. destruct (r_key r); [eauto|contradiction].
Qed.
(** an item of generation 2^64-1 is followed by itself *)
Theorem C20_max_generation_refuted : exists b o t id, opened b /\ is_u64 o /\ o < 2^64 - 1 /\ data_ok b o /\ no_alias b o /\
  forall fuel, range_collect fuel b (RangeAll b (2^64 - 1) o t id) = Timeout.
Proof.
  exists (mkb [(5, mkKey 256 84 100, max64, itemv [x01])]), 5, 84, 256. split; [apply opened_ok; vm_compute; reflexivity|].
  do 2 (split; [unfold is_u64; lia|]).
  split; [apply data_ok_ok; [unfold is_u64; lia|vm_compute; reflexivity]|].
  split; [apply no_alias_ok; [unfold is_u64; lia|apply opened_ok; vm_compute; reflexivity|vm_compute; reflexivity]|].
  intros fuel. unfold range_collect, range_for. set (b := mkb _).
  set (r1 := mkRange (Some (newIndexKey 5 (mkKey 256 84 100) max64)) (newIndexKey 5 (KL2 84 256) (2^64 - 1)) (itemv [x01])).
  set (d1 := mkSlice [x01] 1).
  assert (HI : RangeAll b (2^64 - 1) 5 84 256 = Ok (r1, d1)) by (vm_compute; reflexivity).
  rewrite HI. cbn [rbind]. apply (loop2 b r1 d1 r1 d1); [vm_compute; reflexivity|vm_compute; reflexivity|vm_compute; reflexivity|vm_compute; reflexivity| |intros X; cbn [r_key r1] in X; congruence|intros X; cbn [r_key r1] in X; congruence].
  intros r d s Hr. unfold collect_body. destruct (r_key r); [eauto|contradiction].
Qed.
Example C20_ex : opened b19u /\ data_ok b19u 5 /\ no_max_gen b19u 5 /\ no_alias b19u 5.
Proof. destruct C19_ex as (A & B & C & D & _). auto. Qed.
(** the index of C20_refuted again: listing the extents of any file before the
    last one is covered by the theorem, although its owner shares keys *)
Example C20_ex2 : no_wrap b20 256 (mkKey 299 108 (2^64 - 1)).
Proof.
  right. exists (mkKey 300 108 0). split; [|unfold key_lt; cbn; lia].
  split; [unfold wf_Key, is_u64, is_u8; cbn; lia|]. exists 7, (itemv [x02]). split; [unfold is_u64; lia|unfold stored; vm_compute; auto].
Qed.
Print Assumptions C20_terminates_partial. Print Assumptions C20_refuted. Print Assumptions C20_max_generation_refuted.

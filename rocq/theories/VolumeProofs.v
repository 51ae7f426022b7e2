(** Proofs for C93: the items of a written volume describe its tree. *)
From Verif Require Import Go GoProofs Layout LayoutProofs SpecLayout LeafProofs StructProofs PropsLayout KeyFmt KeyProofs Bolt Store SpecStore Session PropsSession IoUtil Crc PropsCrc Recon PropsRecon.
From Verif Require Import ToString Path Fs Recover SpecFs SpecContent SpecTree SpecDisk DiskProofs PropsDisk Rescue PropsRescueRead PropsRescueNode SpecMount SpecVolume.
From Coq Require FinFun.
From Coq Require Import List Lia ZifyBool ZifyNat ZifyN Sorting.Sorted.
From Verif Require Import Go.
Ltac Zify.zify_post_hook ::= Z.div_mod_to_equations.

(** ** trees *)
Section Ind.
  Variable P : vtree -> Prop.
  Hypothesis HF : forall i b, P (VFile i b).
  Hypothesis HL : forall i t, P (VLink i t).
  Hypothesis HD : forall i kids, (forall n v, In (n, v) kids -> P v) -> P (VDir i kids).
  Fixpoint vtree_ind' (v : vtree) : P v :=
    match v with
    | VFile i b => HF i b
    | VLink i t => HL i t
    | VDir i kids => HD i kids ((fix go (l : list (list byte * vtree)) : forall n v, In (n, v) l -> P v :=
        match l with
        | [] => fun n v H => False_ind _ H
        | x :: l => fun n v H => match H with
          | or_introl E => match E in _ = y return P (snd y) with eq_refl => vtree_ind' (snd x) end
          | or_intror H => go l n v H
          end
        end) kids)
    end.
End Ind.
Lemma node_self v : In v (nodes v). Proof. destruct v; left; reflexivity. Qed.
Lemma node_kid i kids n w : In (n, w) kids -> incl (nodes w) (nodes (VDir i kids)).
Proof. intros H x Hx. right. apply in_flat_map. exists (n, w). split; [exact H|exact Hx]. Qed.
Lemma node_trans v : forall w, In w (nodes v) -> incl (nodes w) (nodes v).
Proof.
  induction v as [i b|i t|i kids IH] using vtree_ind'; intros w Hw.
  - destruct Hw as [<-|[]]. apply incl_refl.
  - destruct Hw as [<-|[]]. apply incl_refl.
  - destruct Hw as [<-|Hw]; [apply incl_refl|]. apply in_flat_map in Hw as ((n, u) & Hu & Hw). cbn [snd] in Hw. intros x Hx. apply (node_kid i kids n u Hu). exact (IH n u Hu w Hw x Hx).
Qed.
Lemma nodup_map_inj {A B} (g : A -> B) l : NoDup (map g l) -> forall x y, In x l -> In y l -> g x = g y -> x = y.
Proof.
  induction l as [|a l IH]; intros H x y Hx Hy E; [destruct Hx|]. cbn [map] in H. inversion H as [|? ? H1 H2]; subst.
  destruct Hx as [<-|Hx], Hy as [<-|Hy]; [reflexivity|destruct H1; rewrite E; apply in_map; exact Hy|destruct H1; rewrite <- E; apply in_map; exact Hx|apply IH; assumption].
Qed.

(** ** lists in key order *)
Lemma sorted_fst_unique (L : list (Key * list byte)) : StronglySorted key_lt (map fst L) -> forall k d d', In (k, d) L -> In (k, d') L -> d = d'.
Proof.
  induction L as [|[k0 d0] L IH]; intros H k d d' H1 H2; [destruct H1|]. cbn [map fst] in H. inversion H as [|? ? Hs HF]; subst. rewrite Forall_forall in HF.
  assert (X : forall d, ~ In (k0, d) L) by (intros z Hz; apply (klt_irrefl k0), HF; change k0 with (fst (k0, z)); apply in_map; exact Hz).
  destruct H1 as [E1|H1], H2 as [E2|H2]; [congruence| | |exact (IH Hs k d d' H1 H2)]; exfalso; [assert (k0 = k) by congruence; subst; exact (X _ H2)|assert (k0 = k) by congruence; subst; exact (X _ H1)].
Qed.
Lemma sorted_same (L M : list (Key * list byte)) : StronglySorted key_lt (map fst L) -> StronglySorted key_lt (map fst M) -> (forall x, In x L <-> In x M) -> L = M.
Proof.
  revert M. induction L as [|x L IH]; intros M HL HM HI.
  - destruct M as [|y M]; [reflexivity|]. destruct (proj2 (HI y) (or_introl eq_refl)).
  - destruct M as [|y M]; [destruct (proj1 (HI x) (or_introl eq_refl))|]. cbn [map] in HL, HM. inversion HL as [|? ? HL1 HL2]; inversion HM as [|? ? HM1 HM2]; subst. rewrite Forall_forall in HL2, HM2.
    assert (x = y).
    { destruct (proj1 (HI x) (or_introl eq_refl)) as [E|Hx]; [congruence|]. destruct (proj2 (HI y) (or_introl eq_refl)) as [E|Hy]; [exact E|].
      exfalso. apply (klt_irrefl (fst x)). apply klt_trans with (fst y); [apply HL2, in_map; exact Hy|apply HM2, in_map; exact Hx]. }
    subst y. f_equal. apply IH; [exact HL1|exact HM1|]. intros z. specialize (HI z). cbn [In] in HI. split; intros Hz.
    + destruct (proj1 HI (or_intror Hz)) as [<-|H]; [|exact H]. exfalso. apply (klt_irrefl (fst x)), HL2, in_map. exact Hz.
    + destruct (proj2 HI (or_intror Hz)) as [<-|H]; [|exact H]. exfalso. apply (klt_irrefl (fst x)), HM2, in_map. exact Hz.
Qed.
Definition kd (i : insertion) : Key * list byte := (i_key i, i_data i).
Lemma keys_kd l : map fst (map kd l) = map i_key l. Proof. rewrite map_map. reflexivity. Qed.
(** the group of a type and object: the only list in key order with these items *)
Lemma group_is is o t id (L : list (Key * list byte)) : StronglySorted key_lt (map fst L) ->
  (forall k d, In (k, d) L <-> (exists i, In i is /\ i_owner i = o /\ i_key i = k /\ i_data i = d) /\ KType k = t /\ ObjectID k = id) ->
  map kd (group is o t id) = L.
Proof.
  intros HS HL. apply sorted_same; [rewrite keys_kd; apply isorted_keys, isorted_filter, tree_sorted|exact HS|].
  assert (Hin : forall i, In i (group is o t id) -> In (kd i) L).
  { intros i Hi. apply filter_In in Hi as [Hi Hk]. destruct (tree_in _ _ _ Hi) as [Hi1 Hi2]. apply HL. split; [exists i; auto|lia]. }
  intros [k d]. split.
  - intros H. apply in_map_iff in H as (i & <- & Hi). exact (Hin i Hi).
  - intros H. destruct (proj1 (HL k d) H) as ((i & Hi & Eo & Ek & Ed) & Et & Eid). destruct (tree_has is o i Hi Eo) as (i' & Hi' & Ek' & _).
    assert (HG : In i' (group is o t id)) by (apply filter_In; split; [exact Hi'|rewrite Ek', Ek; lia]).
    apply in_map_iff. exists i'. split; [|exact HG]. pose proof (Hin i' HG) as H'. unfold kd in *. rewrite Ek', Ek in *. f_equal. exact (sorted_fst_unique L HS k (i_data i') d H' H).
Qed.
(** the item with a given key *)
Lemma item_is is o k d : (forall i, In i is -> i_owner i = o -> i_key i = k -> i_data i = d) -> (exists i, In i is /\ i_owner i = o /\ i_key i = k) ->
  item_data (item_at is o k) = Some (sl d).
Proof.
  intros HU (i & Hi & Eo & Ek). destruct (tree_has is o i Hi Eo) as (i' & Hi' & Ek' & _). unfold item_at, item_data.
  destruct (List.find _ (tree_items is o)) as [j|] eqn:EF.
  - apply List.find_some in EF as [Hj Hk]. apply same_keyb_eq in Hk. destruct (tree_in _ _ _ Hj) as [Hj1 Hj2]. cbn [option_map]. rewrite (HU j Hj1 Hj2 Hk). reflexivity.
  - pose proof (List.find_none _ _ EF i' Hi') as HN. cbv beta in HN. rewrite (proj2 (same_keyb_eq _ _)) in HN; [discriminate|congruence].
Qed.

(** ** the table of a written volume *)
Section Volume.
  Variables (attrs : Z -> d_inode) (D : list byte) (f : Z) (c : d_chunk) (V : vtree) (is : list insertion).
  Hypothesis HV : sound_volume attrs D f c V.
  Hypothesis HC : sound_chunk f c.
  Hypothesis HI : carries_volume attrs f c is V.
  Hypothesis HW : Forall wf_ins is.
  Let cs : list (Z * d_chunk) := [(f, c)].
  Let q := table is cs.

  Lemma v_node v : In v (nodes V) -> node_ok attrs D f c v.
  Proof. destruct HV as (_ & _ & _ & H). rewrite Forall_forall in H. apply H. Qed.
  Lemma v_same v w : In v (nodes V) -> In w (nodes V) -> v_ino v = v_ino w -> v = w.
  Proof. destruct HV as (_ & _ & H & _). exact (nodup_map_inj v_ino _ H v w). Qed.
  Lemma piece_items_key i ps : forall off k d, In (k, d) (piece_items attrs i off ps) -> ObjectID k = i /\ KType k = 108.
  Proof. induction ps as [|p ps IH]; intros off k d H; [destruct H|]. cbn [piece_items] in H. destruct H as [E|H]; [unfold piece_item in E; assert (k = mkKey i 108 off) by congruence; subst k; auto|exact (IH _ k d H)]. Qed.
  Lemma own_key v k d : In (k, d) (own attrs v) -> ObjectID k = v_ino v /\ (KType k = 1 \/ KType k = 84 \/ KType k = 108).
  Proof.
    unfold own. intros [E|H]; [unfold inode_item in E; assert (k = mkKey (v_ino v) 1 0) by congruence; subst k; auto|]. destruct v as [i b|i t|i kids]; cbn [v_ino].
    - destruct b as [c0|size ps]; [destruct H as [E|[]]; unfold inline_item in E; assert (k = mkKey i 108 0) by congruence; subst k; auto|]. destruct (piece_items_key i ps 0 k d H) as [E1 E2]. auto.
    - destruct H as [E|[]]; unfold inline_item in E; assert (k = mkKey i 108 0) by congruence; subst k; auto.
    - apply in_map_iff in H as (x & E & _). unfold name_item in E. assert (Ek : k = mkKey i 84 (NameHash (fst x))) by congruence. rewrite Ek. auto.
  Qed.
  (** items of tree 5 of the types that matter are those of the objects *)
  Lemma tree5 k d : (KType k = 1 \/ KType k = 84 \/ KType k = 108) -> (exists i, In i is /\ i_owner i = 5 /\ i_key i = k /\ i_data i = d) <-> In (k, d) (items attrs V).
  Proof.
    intros Ht. destruct HI as ((others & HO & HX) & _). rewrite (HX 5 k d). split; [|auto]. intros [[_ H]|[[H _]|H]]; [exact H|discriminate|].
    rewrite Forall_forall in HO. specialize (HO _ H). cbn in HO. destruct Ht as [E|[E|E]]; rewrite E in HO; destruct HO as (_ & H1 & H2 & _ & H3 & _); [destruct (H3 eq_refl eq_refl)|destruct (H1 eq_refl)|destruct (H2 eq_refl)].
  Qed.
  Lemma tree5_of v k d : In v (nodes V) -> (KType k = 1 \/ KType k = 84 \/ KType k = 108) -> ObjectID k = v_ino v ->
    (exists i, In i is /\ i_owner i = 5 /\ i_key i = k /\ i_data i = d) <-> In (k, d) (own attrs v).
  Proof.
    intros Hv Ht Eo. rewrite (tree5 k d Ht). unfold items. rewrite in_flat_map. split.
    - intros (w & Hw & H). destruct (own_key w k d H) as [E _]. assert (w = v) by (apply v_same; congruence). subst w. exact H.
    - intros H. exists v. auto.
  Qed.
  (** keys of one object differ *)
  Lemma piece_sorted i ps : forall off, Forall (piece_ok D f c) ps -> StronglySorted key_lt (map fst (piece_items attrs i off ps)) /\ Forall (fun x => off <= KOffset (fst x) /\ fst x = mkKey i 108 (KOffset (fst x))) (piece_items attrs i off ps).
  Proof.
    induction ps as [|p ps IH]; intros off H; [split; constructor|]. inversion H as [|? ? Hp Hps]; subst. cbn [piece_items map]. destruct (IH (off + piece_len p) Hps) as [H1 H2].
    assert (HL : 0 < piece_len p) by (destruct p; cbn [piece_len piece_ok] in *; lia).
    rewrite Forall_forall in H2. split.
    - constructor; [exact H1|]. apply Forall_forall. intros k Hk. apply in_map_iff in Hk as (x & <- & Hx). destruct (H2 x Hx) as [G1 G2]. rewrite G2. unfold piece_item, key_lt. cbn [fst KType ObjectID KOffset]. lia.
    - constructor; [cbn; split; [lia|reflexivity]|]. apply Forall_forall. intros x Hx. destruct (H2 x Hx) as [G1 G2]. split; [lia|exact G2].
  Qed.
  Lemma names_sorted i kids : StronglySorted Z.lt (map (fun k : list byte * vtree => NameHash (fst k)) kids) -> StronglySorted key_lt (map fst (map (name_item attrs i) kids)).
  Proof.
    induction kids as [|x kids IH]; intros H; [constructor|]. cbn [map] in *. inversion H as [|? ? H1 H2]; subst. constructor; [exact (IH H1)|]. rewrite Forall_forall in *. intros k Hk.
    rewrite map_map in Hk. apply in_map_iff in Hk as (y & <- & Hy). unfold key_lt, name_item. cbn [fst KType ObjectID KOffset]. assert (NameHash (fst x) < NameHash (fst y)) by (apply H2; apply in_map_iff; eauto). lia.
  Qed.
  Definition ext_of (v : vtree) : list (Key * list byte) :=
    match v with VFile i (InItem c0) => [inline_item attrs i c0] | VFile i (Pieces _ ps) => piece_items attrs i 0 ps | VLink i t => [inline_item attrs i t] | VDir _ _ => [] end.
  Definition dir_of_v (v : vtree) : list (Key * list byte) := match v with VDir i kids => map (name_item attrs i) kids | _ => [] end.
  Lemma own_split v k d : In (k, d) (own attrs v) <-> (k, d) = inode_item attrs (v_ino v) \/ In (k, d) (ext_of v) \/ In (k, d) (dir_of_v v).
  Proof. unfold own. cbn [In]. destruct v as [i [c0|size ps]|i t|i kids]; cbn [ext_of dir_of_v In]; intuition. Qed.
  Lemma ext_key v k d : In (k, d) (ext_of v) -> ObjectID k = v_ino v /\ KType k = 108.
  Proof.
    destruct v as [i [c0|size ps]|i t|i kids]; cbn [ext_of v_ino]; intros H.
    - destruct H as [E|[]]. unfold inline_item in E. assert (k = mkKey i 108 0) by congruence. subst k. auto.
    - exact (piece_items_key i ps 0 k d H).
    - destruct H as [E|[]]. unfold inline_item in E. assert (k = mkKey i 108 0) by congruence. subst k. auto.
    - destruct H.
  Qed.
  Lemma dir_key v k d : In (k, d) (dir_of_v v) -> ObjectID k = v_ino v /\ KType k = 84.
  Proof.
    destruct v as [i b|i t|i kids]; cbn [dir_of_v v_ino]; intros H; [destruct H..|]. apply in_map_iff in H as (x & E & _). unfold name_item in E. assert (Ek : k = mkKey i 84 (NameHash (fst x))) by congruence. rewrite Ek. auto.
  Qed.
  Lemma group_ext v : In v (nodes V) -> map kd (group is 5 108 (v_ino v)) = ext_of v.
  Proof.
    intros Hv. pose proof (v_node v Hv) as HN. apply group_is.
    - destruct v as [i [c0|size ps]|i t|i kids]; cbn [ext_of]; try (repeat constructor; fail). destruct HN as (_ & _ & _ & _ & HB). destruct HB as (_ & _ & HP). exact (proj1 (piece_sorted i ps 0 HP)).
    - intros k d. split.
      + intros H. destruct (ext_key v k d H) as [E1 E2]. split; [|auto]. apply (tree5_of v k d Hv); [auto|exact E1|]. apply own_split. auto.
      + intros (H & E1 & E2). apply (tree5_of v k d Hv) in H; [|auto|exact E2]. apply own_split in H as [H|[H|H]]; [unfold inode_item in H; assert (k = mkKey (v_ino v) 1 0) by congruence; subst k; discriminate|exact H|destruct (dir_key v k d H); congruence].
  Qed.
  Lemma group_dir v : In v (nodes V) -> map kd (group is 5 84 (v_ino v)) = dir_of_v v.
  Proof.
    intros Hv. pose proof (v_node v Hv) as HN. apply group_is.
    - destruct v as [i b|i t|i kids]; cbn [dir_of_v]; try constructor. apply names_sorted. apply HN.
    - intros k d. split.
      + intros H. destruct (dir_key v k d H) as [E1 E2]. split; [|auto]. apply (tree5_of v k d Hv); [auto|exact E1|]. apply own_split. auto.
      + intros (H & E1 & E2). apply (tree5_of v k d Hv) in H; [|auto|exact E2]. apply own_split in H as [H|[H|H]]; [unfold inode_item in H; assert (k = mkKey (v_ino v) 1 0) by congruence; subst k; discriminate|destruct (ext_key v k d H); congruence|exact H].
  Qed.
  Lemma inode_at v : In v (nodes V) -> q_inode q 5 (v_ino v) = Ok (Some (sl (ser (inode_fields (attrs (v_ino v)))))).
  Proof.
    intros Hv. unfold q, table. cbn [q_inode]. f_equal. apply item_is.
    - intros i Hi Eo Ek. assert (H : In (mkKey (v_ino v) 1 0, i_data i) (own attrs v)) by (apply (tree5_of v _ _ Hv); [auto|reflexivity|exists i; auto]).
      apply own_split in H as [H|[H|H]]; [unfold inode_item in H; congruence|destruct (ext_key _ _ _ H); discriminate|destruct (dir_key _ _ _ H); discriminate].
    - assert (H : In (inode_item attrs (v_ino v)) (own attrs v)) by (left; reflexivity). apply (tree5_of v _ _ Hv) in H; [|auto|reflexivity]. destruct H as (i & Hi & E1 & E2 & _). eauto.
  Qed.
  Lemma extent0_at v d : In v (nodes V) -> ext_of v = [(mkKey (v_ino v) 108 0, d)] -> q_extent0 q 5 (v_ino v) = Ok (Some (sl d)).
  Proof.
    intros Hv HE. unfold q, table. cbn [q_extent0]. f_equal. apply item_is.
    - intros i Hi Eo Ek. assert (H : In (mkKey (v_ino v) 108 0, i_data i) (own attrs v)) by (apply (tree5_of v _ _ Hv); [auto|reflexivity|exists i; auto]).
      apply own_split in H as [H|[H|H]]; [unfold inode_item in H; congruence|rewrite HE in H; destruct H as [H|[]]; congruence|destruct (dir_key _ _ _ H); discriminate].
    - assert (H : In (mkKey (v_ino v) 108 0, d) (own attrs v)) by (apply own_split; right; left; rewrite HE; left; reflexivity). apply (tree5_of v _ _ Hv) in H; [|auto|reflexivity]. destruct H as (i & Hi & E1 & E2 & _). eauto.
  Qed.

  (** *** the chunk *)
  Lemma group_chunk : map kd (group is 3 228 256) = [(mkKey 256 228 f, ser (chunk_fields c))].
  Proof.
    destruct HI as ((others & HO & HX) & _). rewrite Forall_forall in HO. apply group_is; [repeat constructor|]. intros k d. rewrite (HX 3 k d). cbn [In]. split.
    - intros [E|[]]. assert (k = mkKey 256 228 f /\ d = ser (chunk_fields c)) as [-> ->] by (split; congruence). split; [right; left; auto|auto].
    - intros ([[E _]|[(_ & -> & ->)|H]] & E1 & E2); [discriminate|left; reflexivity|]. specialize (HO _ H). cbn in HO. destruct HO as (_ & _ & _ & HO & _). contradiction.
  Qed.
  Lemma v_chunks : chunks_are is cs.
  Proof.
    split; [|split; [intros y []|exact Logic.I]]. pose proof group_chunk as E. destruct (group is 3 228 256) as [|i [|j l]] eqn:EG; try discriminate. cbn [map] in E.
    assert (Ek : i_key i = mkKey 256 228 f /\ i_data i = ser (chunk_fields c)) by (unfold kd in E; split; congruence). destruct Ek as [Ek Ed].
    constructor; [|constructor]. destruct HC as (H1 & H2 & H3 & H4). split; [cbn [fst]; rewrite Ek; reflexivity|]. cbn [snd fst]. split; [|split; [exact H3|exact H4]].
    rewrite Ed, <- (app_nil_r (ser (chunk_fields c))). apply carries_self. exact H2.
  Qed.
  Lemma v_mapped a s r : f <= a < f + ch_length c -> ch_stripes c = s :: r -> mapped cs a = Ok (st_devid s, st_offset s + (a - f)).
  Proof. intros H E. unfold mapped, chunk_of, cs. cbn [List.find fst snd]. replace ((f <=? a) && (a <? f + ch_length c)) with true by lia. rewrite E. reflexivity. Qed.
  Lemma v_subvols : subvols is = [].
  Proof.
    unfold subvols. destruct (filter _ (tree_items is 1)) as [|i l] eqn:E; [reflexivity|]. exfalso. assert (Hi : In i (i :: l)) by (left; reflexivity). rewrite <- E in Hi. apply filter_In in Hi as [Hi Hk].
    destruct (tree_in _ _ _ Hi) as [Hi1 Hi2]. destruct HI as ((others & HO & HX) & _). rewrite Forall_forall in HO.
    destruct (proj1 (HX 1 (i_key i) (i_data i)) (ex_intro _ i (conj Hi1 (conj Hi2 (conj eq_refl eq_refl))))) as [[F _]|[[F _]|H]]; try discriminate.
    specialize (HO _ H). cbn in HO. destruct HO as (_ & _ & _ & _ & _ & HO). specialize (HO eq_refl). lia.
  Qed.
  (** *** conditions on the index *)
  Lemma carries_exact fs : fits fs -> carries (sl (ser fs)) fs.
  Proof. intros H. rewrite <- (app_nil_r (ser fs)). apply carries_self. exact H. Qed.
  Lemma kid_node i kids n w : In (VDir i kids) (nodes V) -> In (n, w) kids -> In w (nodes V).
  Proof. intros H Hk. apply (node_trans V _ H). apply (node_kid i kids n w Hk). apply node_self. Qed.
  Definition di_of (k : list byte * vtree) : d_dir_item :=
    {| di_location := {| k_objectid := v_ino (snd k); k_type := 1; k_offset := 0 |}; di_transid := in_generation (attrs (v_ino (snd k))); di_type := v_type (snd k); di_name := fst k; di_data := [] |}.
  Lemma inode_gen i : fits (inode_fields (attrs i)) -> 0 <= in_generation (attrs i) < 2^64.
  Proof. intros H. unfold inode_fields in H. cbn [app] in H. apply Forall_inv in H. exact H. Qed.
  Lemma name_carried i kids k : In (VDir i kids) (nodes V) -> In k kids -> carries (sl (ser (dir_item_fields (di_of k)))) (dir_item_fields (di_of k)).
  Proof.
    intros Hv Hk. destruct k as [n w]. pose proof (kid_node i kids n w Hv Hk) as Hw. destruct (v_node _ Hw) as (Hr & Hf & _). destruct (v_node _ Hv) as (_ & _ & _ & Hn & _). rewrite Forall_forall in Hn. specialize (Hn _ Hk). cbn [fst] in Hn. destruct Hn as (_ & _ & Hl).
    apply carries_exact. pose proof (inode_gen _ Hf) as Hg. pose proof (zlen_nonneg n). unfold fits, dir_item_fields, key_fields, di_of. cbn [app fst snd di_location di_transid di_type di_name di_data k_objectid k_type k_offset length].
    assert (v_type w = 1 \/ v_type w = 2 \/ v_type w = 7) by (destruct w; cbn; auto). repeat (constructor; [cbn [fit1]; try reflexivity; change (256 ^ Z.of_nat 8) with (2^64); change (256 ^ Z.of_nat 2) with 65536; change (256 ^ Z.of_nat 1) with 256; try change (zlen []) with 0; lia|]). constructor.
  Qed.
  Lemma v_orderly : orderly is.
  Proof.
    pose proof v_subvols as HS. destruct HI as ((others & HO & HX) & HG & HL & A3 & A5). rewrite Forall_forall in HO.
    assert (Hany : forall i, In i is -> (i_owner i = 5 /\ In (i_key i, i_data i) (items attrs V)) \/ (i_owner i = 3 /\ i_key i = mkKey 256 228 f) \/ harmless (i_owner i, (i_key i, i_data i))).
    { intros i Hi. destruct (proj1 (HX (i_owner i) (i_key i) (i_data i)) (ex_intro _ i (conj Hi (conj eq_refl (conj eq_refl eq_refl))))) as [H|[(H1 & H2 & _)|H]]; [left; exact H|right; left; auto|right; right; exact (HO _ H)]. }
    assert (Hitem : forall k d, In (k, d) (items attrs V) -> exists v, In v (nodes V) /\ In (k, d) (own attrs v)) by (intros k d H; apply in_flat_map in H; exact H).
    split; [|split; [|split]].
    - intros i loc Hi Ht Hloc. destruct (Hany i Hi) as [[_ H]|[[_ H]|H]]; [|rewrite H in Ht; discriminate|cbn in H; lia].
      destruct (Hitem _ _ H) as (v & Hv & Hin). apply own_split in Hin as [E|[E|E]].
      + unfold inode_item in E. assert (Ek : i_key i = mkKey (v_ino v) 1 0) by congruence. rewrite Ek in Ht. discriminate.
      + destruct (ext_key _ _ _ E). lia.
      + destruct v as [i0 b|i0 t|i0 kids]; [destruct E..|]. cbn [dir_of_v] in E. apply in_map_iff in E as (k & E & Hk). assert (Ed : i_data i = ser (dir_item_fields (di_of k))) by (unfold name_item in E; unfold di_of; congruence).
        rewrite Ed in Hloc. destruct (C06_dir_item _ _ (name_carried i0 kids k Hv Hk)) as (HLc & _). rewrite HLc in Hloc. destruct k as [n w]. destruct (v_node _ (kid_node i0 kids n w Hv Hk)) as (Hr & _).
        assert (El : loc = mkKey (v_ino w) 1 0) by (unfold di_of in Hloc; cbn [di_location k_objectid k_type k_offset snd] in Hloc; congruence). rewrite El. cbn [ObjectID]. lia.
    - intros i Hi. split; [exact (HL i Hi)|]. destruct (Hany i Hi) as [[_ H]|[[_ H]|H]]; [|rewrite H; cbn [KType]; lia|cbn in H; lia]. destruct (Hitem _ _ H) as (v & _ & Hin). destruct (own_key _ _ _ Hin) as [_ [E|[E|E]]]; lia.
    - intros o t id Ht Hne. split.
      + intros i j Hi Hj. apply filter_In in Hi as [Hi Ki], Hj as [Hj Kj]. destruct (tree_in _ _ _ Hi) as [Hi1 Hi2], (tree_in _ _ _ Hj) as [Hj1 Hj2]. apply HG; [exact Hi1|exact Hj1|congruence|lia|lia].
      + right. destruct (group is o t id) as [|i l] eqn:E; [congruence|]. assert (Hi : In i (i :: l)) by (left; reflexivity). rewrite <- E in Hi. apply filter_In in Hi as [Hi Ki]. destruct (tree_in _ _ _ Hi) as [Hi1 Hi2].
        destruct (Hany i Hi1) as [[H _]|[[H _]|H]]; [|..]; [replace o with 5 by congruence; exact A5|replace o with 3 by congruence; exact A3|cbn in H; lia].
    - intros H. contradiction.
  Qed.

  (** *** files *)
  Definition stripe0 : d_stripe := match ch_stripes c with s :: _ => s | [] => {| st_devid := 0; st_offset := 0; st_dev_uuid := [] |} end.
  Fixpoint ext_list (off : Z) (ps : list piece) : list extent :=
    match ps with
    | [] => []
    | PHole n :: ps => Hole off n :: ext_list (off + n) ps
    | PData a d :: ps => Disk off (zlen d) (st_offset stripe0 + (a - f)) :: ext_list (off + zlen d) ps
    end.
  Definition exts (b : body) : list extent := match b with InItem c0 => [Inline 0 c0] | Pieces _ ps => ext_list 0 ps end.
  Lemma ext_list_off ps : forall off x, Forall (piece_ok D f c) ps -> In x (ext_list off ps) -> off <= ext_off x.
  Proof.
    induction ps as [|p ps IH]; intros off x H Hx; [destruct Hx|]. inversion H as [|? ? Hp Hps]; subst. destruct p as [n|a d]; cbn [ext_list] in Hx; (destruct Hx as [<-|Hx]; [cbn [ext_off]; lia|]); specialize (IH _ x Hps Hx); cbn [piece_ok] in Hp; lia.
  Qed.
  Lemma find_app {A} (g : A -> bool) l m : List.find g (l ++ m) = match List.find g l with Some x => Some x | None => List.find g m end.
  Proof. induction l as [|x l IH]; [reflexivity|]. cbn [app List.find]. destruct (g x); [reflexivity|exact IH]. Qed.
  Lemma file_byte_cons x xs i : file_byte D (x :: xs) i = match List.find (fun y => covers y i) (rev xs) with Some y => ext_byte D y i | None => if covers x i then ext_byte D x i else x00 end.
  Proof. unfold file_byte. cbn [rev]. rewrite find_app. destruct (List.find _ (rev xs)); [reflexivity|]. cbn [List.find]. destruct (covers x i); reflexivity. Qed.
  Lemma byte_at_app x y j : 0 <= j -> byte_at (x ++ y) j = if j <? zlen x then byte_at x j else byte_at y (j - zlen x).
  Proof.
    intros H. unfold byte_at, zlen. destruct (j <? Z.of_nat (length x)) eqn:E; [rewrite app_nth1 by lia; reflexivity|]. rewrite app_nth2 by lia. f_equal. lia.
  Qed.
  Lemma ext_list_len p ps : 0 <= piece_len p -> zlen (piece_bytes p) = piece_len p /\ zlen (concat (map piece_bytes (p :: ps))) = piece_len p + zlen (concat (map piece_bytes ps)).
  Proof. intros H. assert (E : zlen (piece_bytes p) = piece_len p) by (destruct p as [n|a d]; cbn [piece_bytes piece_len] in *; [unfold zlen; rewrite repeat_length; lia|reflexivity]). split; [exact E|]. cbn [map concat]. rewrite zlen_app. lia. Qed.
  Lemma ext_list_bytes ps : forall off j, Forall (piece_ok D f c) ps -> 0 <= j < zlen (concat (map piece_bytes ps)) -> file_byte D (ext_list off ps) (off + j) = byte_at (concat (map piece_bytes ps)) j.
  Proof.
    induction ps as [|p ps IH]; intros off j H Hj; [unfold zlen in Hj; cbn in Hj; lia|]. inversion H as [|? ? Hp Hps]; subst.
    assert (HL : 0 < piece_len p) by (destruct p; cbn [piece_len piece_ok] in *; lia). destruct (ext_list_len p ps ltac:(lia)) as [E1 E2].
    assert (EX : exists x, ext_list off (p :: ps) = x :: ext_list (off + piece_len p) ps /\ ext_off x = off /\ ext_len x = piece_len p /\ forall j, 0 <= j < piece_len p -> ext_byte D x (off + j) = byte_at (piece_bytes p) j).
    { destruct p as [n|a d]; cbn [ext_list piece_len piece_bytes]; eexists; (split; [reflexivity|]); cbn [ext_off ext_len ext_byte]; split; try reflexivity; split; try reflexivity; intros k Hk.
      - unfold byte_at. symmetry. destruct (nth_in_or_default (Z.to_nat k) (repeat x00 (Z.to_nat n)) x00) as [X|X]; [exact (repeat_spec _ _ _ X)|exact X].
      - cbn [piece_ok] in Hp. destruct Hp as (_ & _ & Hfa & _ & s & r & Es & _ & Ed). unfold stripe0. rewrite Es. assert (EH := proj2 (proj2 (proj2 HC))). rewrite Es in EH. replace (off + k - off) with k by lia.
        set (P := st_offset s + (a - f)) in *. assert (Hk' : (Z.to_nat k < length d)%nat) by (unfold zlen in Hk; lia). transitivity (nth (Z.to_nat k) (firstn (length d) (skipn (Z.to_nat P) D)) x00); [|unfold byte_at; f_equal; symmetry; exact Ed].
        rewrite nth_firstn' by exact Hk'. rewrite nth_skipn'. unfold byte_at. f_equal. subst P. lia. }
    destruct EX as (x & -> & X1 & X2 & X3). rewrite file_byte_cons. cbn [map concat]. rewrite byte_at_app by lia. rewrite E1. destruct (j <? piece_len p) eqn:Ej.
    - destruct (List.find _ (rev (ext_list (off + piece_len p) ps))) as [y|] eqn:EF.
      + exfalso. apply List.find_some in EF as [Hy Hc]. apply in_rev in Hy. pose proof (ext_list_off ps _ y Hps Hy). unfold covers in Hc. lia.
      + unfold covers. rewrite X1, X2. replace ((off <=? off + j) && (off + j <? off + piece_len p)) with true by lia. apply X3. lia.
    - assert (EI := IH (off + piece_len p) (j - piece_len p) Hps ltac:(lia)). replace (off + piece_len p + (j - piece_len p)) with (off + j) in EI by lia. rewrite <- EI. unfold file_byte.
      destruct (List.find _ (rev (ext_list (off + piece_len p) ps))) as [y|] eqn:EF; [reflexivity|]. unfold covers. rewrite X1, X2. replace ((off <=? off + j) && (off + j <? off + piece_len p)) with false by lia. reflexivity.
  Qed.

  Lemma row_key i : In i is -> ik_Key (fst (row i)) = i_key i.
  Proof. intros Hi. rewrite Forall_forall in HW. destruct (HW i Hi) as [WT _]. destruct (ik_built _ _ _ WT) as (_ & _ & _ & _ & _ & E). exact E. Qed.
  Lemma in_group o t id i : In i (group is o t id) -> In i is.
  Proof. intros H. apply filter_In in H as [H _]. exact (proj1 (tree_in _ _ _ H)). Qed.
  Definition reg_of (i : Z) (p : piece) : d_fe_reg :=
    match p with
    | PHole n => {| fr_head := ext_head attrs i n 1; fr_disk_bytenr := 0; fr_disk_num_bytes := 0; fr_offset := 0; fr_num_bytes := n |}
    | PData a d => {| fr_head := ext_head attrs i (zlen d) 1; fr_disk_bytenr := a; fr_disk_num_bytes := zlen d; fr_offset := 0; fr_num_bytes := zlen d |}
    end.
  Lemma piece_range p : piece_ok D f c p -> match p with PHole n => 0 <= n < 2^64 | PData a d => 0 <= a < 2^64 /\ 0 <= zlen d < 2^64 end.
  Proof.
    destruct HC as (H1 & _ & _ & H4). destruct p as [n|a d]; cbn [piece_ok]; [lia|]. intros (G1 & G2 & G3 & G4 & s & r & Es & G5 & _). rewrite Es in H4. unfold is_u64 in H1. lia.
  Qed.
  Lemma piece_carried i p : fits (inode_fields (attrs i)) -> piece_ok D f c p -> carries (sl (ser (fe_reg_fields (reg_of i p)))) (fe_reg_fields (reg_of i p)).
  Proof.
    intros Hf Hp. pose proof (inode_gen _ Hf). pose proof (piece_range p Hp) as HR. apply carries_exact. unfold fits, fe_reg_fields, fe_head_fields, reg_of, ext_head.
    destruct p as [n|a d]; cbn [app fr_head fr_disk_bytenr fr_disk_num_bytes fr_offset fr_num_bytes fe_generation fe_ram_bytes fe_compression fe_encryption fe_other_encoding fe_type];
    repeat (constructor; [cbn [fit1]; try change (256 ^ Z.of_nat 8) with (2^64); try change (256 ^ Z.of_nat 2) with 65536; try change (256 ^ Z.of_nat 1) with 256; lia|]); constructor.
  Qed.
  Lemma pieces_are i ps : fits (inode_fields (attrs i)) -> forall off G, Forall (piece_ok D f c) ps -> (forall g, In g G -> In g is) -> map kd G = piece_items attrs i off ps -> Forall2 (is_extent q) (map row G) (ext_list off ps).
  Proof.
    intros Hf. induction ps as [|p ps IH]; intros off G HP HG E; [destruct G; [constructor|discriminate]|]. destruct G as [|g G]; [discriminate|]. inversion HP as [|? ? Hp Hps]; subst. cbn [map piece_items] in E.
    assert (E1 : kd g = piece_item attrs i off p) by congruence. assert (E2 : map kd G = piece_items attrs i (off + piece_len p) ps) by congruence.
    assert (Ek : i_key g = mkKey i 108 off) by (unfold kd, piece_item in E1; congruence). assert (Ed : i_data g = ser (fe_reg_fields (reg_of i p))) by (unfold kd, piece_item in E1; unfold reg_of; congruence).
    assert (HX : exists x, ext_list off (p :: ps) = x :: ext_list (off + piece_len p) ps /\ is_extent q (row g) x).
    { destruct (C06_file_extent _ _ (piece_carried i p Hf Hp)) as (_ & _ & _ & _ & _ & C1 & C2 & _ & C3 & C4 & _). rewrite <- Ed in C1, C2, C3, C4. pose proof (row_key g (HG g (or_introl eq_refl))) as EK. rewrite Ek in EK. unfold row in EK. cbn [fst] in EK.
      pose proof (piece_range p Hp) as HR. destruct p as [n|a d]; cbn [ext_list piece_len]; eexists; (split; [reflexivity|]); unfold is_extent, row; rewrite EK; cbn [KOffset]; right; [left|right].
      - exists 1, n. split; [exact C1|]. split; [discriminate|]. split; [exact C4|]. split; [exact C2|reflexivity].
      - cbn [piece_ok] in Hp. destruct Hp as (G1 & G2 & G3 & G4 & s & r & Es & G5 & _). destruct HC as (K1 & _ & _ & K4). rewrite Es in K4. unfold stripe0. rewrite Es. exists 1, (zlen d), a, (st_devid s), (st_offset s + (a - f)), 0.
        split; [exact C1|]. split; [discriminate|]. split; [exact C4|]. split; [exact C2|]. split; [lia|]. split; [unfold q, table; cbn [q_physical]; apply v_mapped with (r := r); [lia|exact Es]|]. split; [exact C3|]. f_equal. rewrite Z.add_0_r. symmetry. apply Z.mod_small. unfold is_u64 in K1. lia. }
    destruct HX as (x & -> & HX). cbn [map]. constructor; [exact HX|]. apply IH; [exact Hps|intros g' Hg'; apply HG; right; exact Hg'|exact E2].
  Qed.
  Lemma inline_carried i c0 : fits (inode_fields (attrs i)) -> zlen c0 <= 16384 -> let e := {| fi_head := ext_head attrs i (zlen c0) 0; fi_data := c0 |} in carries (sl (ser (fe_inline_fields e))) (fe_inline_fields e).
  Proof.
    intros Hf Hc e. pose proof (inode_gen _ Hf). pose proof (zlen_nonneg c0). apply carries_exact. unfold fits, fe_inline_fields, fe_head_fields, e, ext_head. cbn [app fi_head fi_data fe_generation fe_ram_bytes fe_compression fe_encryption fe_other_encoding fe_type].
    repeat (constructor; [cbn [fit1]; try reflexivity; try change (256 ^ Z.of_nat 8) with (2^64); try change (256 ^ Z.of_nat 2) with 65536; try change (256 ^ Z.of_nat 1) with 256; lia|]); constructor.
  Qed.
  Lemma inline_says i c0 : fits (inode_fields (attrs i)) -> zlen c0 <= 16384 -> let e := sl (ser (fe_inline_fields {| fi_head := ext_head attrs i (zlen c0) 0; fi_data := c0 |})) in FileExtentItem_Type e = Ok 0 /\ FileExtentItem_Data e = Ok c0.
  Proof.
    intros Hf Hc e. pose proof (inline_carried i c0 Hf Hc) as H. split; [exact (f8 _ _ 5 _ H eq_refl)|]. apply (C10_inline_partial _ _ H); [reflexivity|exact Hc].
  Qed.
  Lemma exts_are i b : In (VFile i b) (nodes V) -> Forall2 (is_extent q) (st_items (q_extents q 5 i)) (exts b).
  Proof.
    intros Hv. destruct (v_node _ Hv) as (_ & Hf & _ & _ & HB). cbn [v_ino] in Hf. pose proof (group_ext _ Hv) as EG. cbn [v_ino] in EG. unfold q, table. cbn [q_extents st_items]. fold cs. fold q.
    assert (HG : forall g, In g (group is 5 108 i) -> In g is) by (intros g; apply in_group). destruct b as [c0|size ps]; cbn [ext_of exts] in *.
    - destruct (group is 5 108 i) as [|g [|? ?]]; try discriminate. cbn [map] in *. assert (Ek : i_key g = mkKey i 108 0 /\ i_data g = ser (fe_inline_fields {| fi_head := ext_head attrs i (zlen c0) 0; fi_data := c0 |})) by (unfold kd, inline_item in EG; split; congruence). destruct Ek as [Ek Ed].
      constructor; [|constructor]. pose proof (row_key g (HG g (or_introl eq_refl))) as EK. rewrite Ek in EK. unfold row in EK. cbn [fst] in EK. unfold is_extent, row. rewrite EK. cbn [KOffset]. left. exists c0. rewrite Ed. destruct (inline_says i c0 Hf HB) as [S1 S2]. auto.
    - destruct HB as (_ & _ & HP). exact (pieces_are i ps Hf 0 _ HP HG EG).
  Qed.
  Lemma ext_usable ps : forall off, Forall (piece_ok D f c) ps -> 0 <= off -> off + zlen (concat (map piece_bytes ps)) < 2^62 -> Forall (usable D) (ext_list off ps).
  Proof.
    induction ps as [|p ps IH]; intros off H Ho Hl; [constructor|]. inversion H as [|? ? Hp Hps]; subst. assert (HL : 0 < piece_len p) by (destruct p; cbn [piece_len piece_ok] in *; lia). destruct (ext_list_len p ps ltac:(lia)) as [_ E2]. rewrite E2 in Hl. pose proof (zlen_nonneg (concat (map piece_bytes ps))).
    destruct p as [n|a d]; cbn [ext_list piece_len] in *; (constructor; [|apply IH; [exact Hps|lia|lia]]); unfold usable; cbn [ext_off ext_len]; cbn [piece_ok] in Hp; [lia|]. destruct Hp as (_ & _ & _ & _ & s & r & Es & G5 & _). unfold stripe0. rewrite Es. lia.
  Qed.
  Lemma content_len b : body_ok D f c b -> 0 <= zlen (content b) < 2^63 /\ match b with Pieces size ps => zlen (content b) = size | InItem _ => True end.
  Proof.
    destruct b as [c0|size ps]; cbn [content body_ok]; intros H; [pose proof (zlen_nonneg c0); lia|]. destruct H as (H1 & H2 & _). assert (E : zlen (firstn (Z.to_nat size) (concat (map piece_bytes ps))) = size) by (unfold zlen in *; rewrite firstn_length; lia). rewrite E. lia.
  Qed.
  Lemma v_file i b : In (VFile i b) (nodes V) -> file_shows q D 5 i (content b).
  Proof.
    intros Hv. destruct (v_node _ Hv) as (_ & Hf & Htm & Hsz & HB). cbn [v_ino] in Hf, Htm. exists (exts b), (sl (ser (inode_fields (attrs i)))). split; [exact (exts_are i b Hv)|]. split; [|split; [reflexivity|]].
    - destruct b as [c0|size ps]; cbn [exts body_ok] in *; [constructor; [|constructor]; split; [cbn [ext_off ext_len]; lia|exact Logic.I]|]. destruct HB as (_ & H2 & HP). apply ext_usable; [exact HP|lia|lia].
    - split; [exact (inode_at _ Hv)|]. destruct (C06_inode_item _ _ (carries_exact _ Hf) Htm) as (_ & _ & HS & _). rewrite HS, Hsz. destruct (content_len b HB) as [HL HL2]. split; [reflexivity|]. split; [lia|].
      intros j Hj. destruct b as [c0|size ps]; cbn [exts content] in *.
      + unfold file_byte. cbn [rev app List.find]. unfold covers. cbn [ext_off ext_len]. replace ((0 <=? j) && (j <? 0 + zlen c0)) with true by lia. cbn [ext_byte]. f_equal. lia.
      + destruct HB as (H1 & H2 & HP). pose proof (ext_list_bytes ps 0 j HP ltac:(lia)) as E. rewrite Z.add_0_l in E. rewrite E. unfold byte_at. rewrite nth_firstn' by lia. reflexivity.
  Qed.
  Lemma link_small t : path_arg t = true -> zlen t <= 16384.
  Proof. unfold path_arg. intros H. apply andb_prop in H as [H _]. apply andb_prop in H as [_ H]. lia. Qed.
  Lemma v_link i t : In (VLink i t) (nodes V) -> link_shows q D 5 i t.
  Proof.
    intros Hv. destruct (v_node _ Hv) as (_ & Hf & Htm & Hp). cbn [v_ino] in Hf. eexists. split; [exact (extent0_at _ _ Hv eq_refl)|]. split; [|exact Hp]. left. exact (inline_says i t Hf (link_small t Hp)).
  Qed.
  (** *** directories *)
  Fixpoint dirs (v : vtree) : list (Z * Z) := match v with VDir i kids => (5, i) :: flat_map (fun k => dirs (snd k)) kids | _ => [] end.
  Lemma name_says i kids k : In (VDir i kids) (nodes V) -> In k kids -> says (sl (ser (dir_item_fields (di_of k)))) (fst k) (v_type (snd k)) (mkKey (v_ino (snd k)) 1 0).
  Proof.
    intros Hv Hk. pose proof (name_carried i kids k Hv Hk) as HCr. destruct (C06_dir_item _ _ HCr) as (H1 & _ & _ & _ & H2 & _). destruct (v_node _ Hv) as (_ & _ & _ & Hn & _). rewrite Forall_forall in Hn. destruct (Hn _ Hk) as (_ & _ & Hl).
    split; [exact (proj1 C08_names_exact _ _ HCr Hl)|]. split; [exact H2|exact H1].
  Qed.
  Lemma skip_plain n : name_ok n -> skip_name n = false.
  Proof.
    intros ((H1 & H2 & H3 & H4) & H5 & _). unfold skip_name. assert (G : forall x, ~ In x n -> has_byte x n = false).
    { intros x Hx. unfold has_byte. destruct (existsb _ n) eqn:E; [|reflexivity]. apply existsb_exists in E as (y & Hy & E). apply beqb_eq in E. subst. contradiction. }
    rewrite (G slash H4), (G backslash H5). unfold is_dot, is_dotdot. destruct (bytes_eqb n [dot]) eqn:E1; [apply bytes_eqb_eq in E1; contradiction|]. destruct (bytes_eqb n [dot; dot]) eqn:E2; [apply bytes_eqb_eq in E2; contradiction|]. reflexivity.
  Qed.
  Definition kid_tree (k : list byte * vtree) : list byte * tree := (fst k, tree_of (snd k)).
  Lemma v_list i kids : In (VDir i kids) (nodes V) -> (forall n w, In (n, w) kids -> forall j sub, w = VDir j sub -> dir_shows q D 5 j (map kid_tree sub) (dirs w)) ->
    forall G l, incl l kids -> StronglySorted Z.lt (map (fun k => NameHash (fst k)) l) -> map kd G = map (name_item attrs i) l -> list_shows q D 5 (map row G) (map kid_tree l) (flat_map (fun k => dirs (snd k)) l).
  Proof.
    intros Hv HD G l. revert G. induction l as [|k l IH]; intros G Hin HS E; [destruct G; [constructor|discriminate]|]. destruct G as [|g G]; [discriminate|]. cbn [map] in E, HS. inversion HS as [|? ? HS1 HS2]; subst. rewrite Forall_forall in HS2.
    assert (Eg : i_data g = ser (dir_item_fields (di_of k))) by (assert (X : kd g = name_item attrs i k) by congruence; unfold kd, name_item in X; unfold di_of; congruence). assert (EG : map kd G = map (name_item attrs i) l) by congruence.
    assert (Hk : In k kids) by (apply Hin; left; reflexivity). specialize (IH G (fun x Hx => Hin x (or_intror Hx)) HS1 EG).
    assert (Hnot : ~ In (fst k) (map fst (map kid_tree l))).
    { rewrite map_map. cbn [kid_tree fst]. intros X. apply in_map_iff in X as (y & Ey & Hy). specialize (HS2 (NameHash (fst y)) (in_map (fun k => NameHash (fst k)) l y Hy)). unfold kid_tree in Ey. cbn [fst] in Ey. rewrite Ey in HS2. lia. }
    pose proof (name_says i kids k Hv Hk) as HSay. rewrite <- Eg in HSay. destruct (v_node _ Hv) as (_ & _ & _ & Hn & _). rewrite Forall_forall in Hn. pose proof (Hn _ Hk) as Hok.
    destruct k as [n w]. cbn [fst snd] in *. pose proof (kid_node i kids n w Hv Hk) as Hw. cbn [map flat_map fst snd]. change (row g) with (newIndexKey (i_owner g) (i_key g) (i_gen g), sl (i_data g)). unfold kid_tree at 1. cbn [fst snd].
    destruct w as [j b|j t|j sub]; cbn [tree_of dirs app v_type v_ino] in *.
    - eapply shows_file; [exact HSay|discriminate|cbn [ObjectID]; exact (v_file j b Hw)|exact Hok|exact Hnot|exact IH].
    - eapply shows_link; [exact HSay|discriminate|cbn [ObjectID]; exact (v_link j t Hw)|exact Hok|exact Hnot|exact IH].
    - change ((5, j) :: flat_map (fun k => dirs (snd k)) sub ++ flat_map (fun k => dirs (snd k)) l) with (dirs (VDir j sub) ++ flat_map (fun k => dirs (snd k)) l). change (map (fun k => (fst k, tree_of (snd k))) sub) with (map kid_tree sub).
      eapply (shows_sub q (shown q D) 5 _ _ _ n 5 j); [exact (proj1 HSay)| |exact (HD n _ Hk j sub eq_refl)|exact Hok|exact Hnot|exact IH].
      destruct HSay as (S1 & S2 & S3). exists n, 2, (mkKey j 1 0). split; [exact S1|]. split; [exact (skip_plain n Hok)|]. split; [exact S2|]. split; [exact S3|]. right. split; [discriminate|]. auto.
  Qed.
  Lemma v_dir v : In v (nodes V) -> forall i kids, v = VDir i kids -> dir_shows q D 5 i (map kid_tree kids) (dirs v).
  Proof.
    induction v as [i0 b|i0 t|i0 kids0 IH] using vtree_ind'; intros Hv i kids E; try discriminate. assert (i0 = i /\ kids0 = kids) as [-> ->] by (split; congruence). cbn [dirs]. constructor; [reflexivity|].
    unfold q at 2, table. cbn [q_dirItems st_items]. apply v_list with (i := i) (kids := kids).
    - exact Hv.
    - intros n w Hk j sub Ew. apply (IH n w Hk (kid_node i kids n w Hv Hk) j sub Ew).
    - apply incl_refl.
    - apply (v_node _ Hv).
    - exact (group_dir _ Hv).
  Qed.
  Lemma dirs_nodes v : forall x, In x (dirs v) -> exists i kids, x = (5, i) /\ In (VDir i kids) (nodes v).
  Proof.
    induction v as [i0 b|i0 t|i0 kids0 IH] using vtree_ind'; intros x Hx; [destruct Hx..|]. destruct Hx as [<-|Hx]; [exists i0, kids0; split; [reflexivity|left; reflexivity]|].
    apply in_flat_map in Hx as ((n, w) & Hk & Hx). destruct (IH n w Hk x Hx) as (i & kids & -> & H). exists i, kids. split; [reflexivity|]. exact (node_kid i0 kids0 n w Hk _ H).
  Qed.
  Fixpoint dnodes (v : vtree) : list Z := match v with VDir i kids => i :: flat_map (fun k => dnodes (snd k)) kids | _ => [] end.
  Lemma dirs_map v : dirs v = map (fun i => (5, i)) (dnodes v).
  Proof.
    induction v as [i0 b|i0 t|i0 kids0 IH] using vtree_ind'; [reflexivity..|]. cbn [dirs dnodes map]. f_equal. induction kids0 as [|[n w] l IHl]; [reflexivity|]. cbn [flat_map snd]. rewrite map_app, (IH n w (or_introl eq_refl)). f_equal. apply IHl. intros n' w' H. exact (IH n' w' (or_intror H)).
  Qed.
  Lemma nodup_app_r {A} (a b : list A) : NoDup (a ++ b) -> NoDup b. Proof. induction a as [|x a IH]; intros H; [exact H|]. cbn [app] in H. inversion H; subst. auto. Qed.
  Lemma nodup_app_l {A} (a b : list A) : NoDup (a ++ b) -> NoDup a. Proof. induction a as [|x a IH]; intros H; [constructor|]. cbn [app] in H. inversion H as [|? ? H1 H2]; subst. constructor; [intros X; apply H1, in_or_app; auto|auto]. Qed.
  Lemma nodup_app_x {A} (a b : list A) x : NoDup (a ++ b) -> In x a -> ~ In x b. Proof. induction a as [|y a IH]; intros H Hx; [destruct Hx|]. cbn [app] in H. inversion H as [|? ? H1 H2]; subst. destruct Hx as [<-|Hx]; [intros Hb; apply H1, in_or_app; auto|auto]. Qed.
  Lemma nodup_app {A} (a b : list A) : NoDup a -> NoDup b -> (forall x, In x a -> ~ In x b) -> NoDup (a ++ b).
  Proof. induction a as [|y a IH]; intros Ha Hb H; [exact Hb|]. cbn [app]. inversion Ha as [|? ? H1 H2]; subst. constructor; [intros X; apply in_app_or in X as [X|X]; [contradiction|exact (H y (or_introl eq_refl) X)]|]. apply IH; [exact H2|exact Hb|intros x Hx; apply H; right; exact Hx]. Qed.
  Lemma dnodes_in v : incl (dnodes v) (map v_ino (nodes v)).
  Proof.
    induction v as [i0 b|i0 t|i0 kids0 IH] using vtree_ind'; intros x Hx; [destruct Hx..|]. destruct Hx as [<-|Hx]; [left; reflexivity|]. apply in_flat_map in Hx as ((n, w) & Hk & Hx). right. apply in_map_iff.
    apply (IH n w Hk) in Hx. apply in_map_iff in Hx as (u & E & Hu). exists u. split; [exact E|]. apply in_flat_map. exists (n, w). auto.
  Qed.
  Lemma dnodes_nodup v : NoDup (map v_ino (nodes v)) -> NoDup (dnodes v).
  Proof.
    induction v as [i0 b|i0 t|i0 kids0 IH] using vtree_ind'; intros H; [constructor..|]. cbn [nodes map v_ino] in H. inversion H as [|? ? H1 H2]; subst. cbn [dnodes].
    assert (HX : NoDup (flat_map (fun k => dnodes (snd k)) kids0) /\ incl (flat_map (fun k => dnodes (snd k)) kids0) (map v_ino (flat_map (fun k => nodes (snd k)) kids0))).
    { clear H H1. induction kids0 as [|[n w] l IHl]; [split; [constructor|intros x []]|]. cbn [flat_map snd] in *. rewrite map_app in *. destruct IHl as [I1 I2]; [intros n' w' Hk; exact (IH n' w' (or_intror Hk))|exact (nodup_app_r _ _ H2)|].
      split; [|apply incl_app; [intros x Hx; apply in_or_app; left; exact (dnodes_in w x Hx)|intros x Hx; apply in_or_app; right; exact (I2 x Hx)]].
      apply nodup_app; [apply (IH n w (or_introl eq_refl)), (nodup_app_l _ _ H2)|exact I1|]. intros x Hx Hy. exact (nodup_app_x _ _ x H2 (dnodes_in w x Hx) (I2 x Hy)). }
    destruct HX as [X1 X2]. constructor; [intros X; apply H1; exact (X2 _ X)|exact X1].
  Qed.
  Lemma v_volume kids : V = VDir 256 kids -> volume_shows q D (map kid_tree kids) /\ dir_shows q D FSTreeObjectID FirstFreeObjectID (map kid_tree kids) (dirs V).
  Proof.
    intros EV. assert (HS : dir_shows q D FSTreeObjectID FirstFreeObjectID (map kid_tree kids) (dirs V)) by (apply (v_dir V (node_self V) 256 kids EV)). split; [|exact HS].
    exists (map kid_tree kids), (dirs V), []. split; [exact HS|]. split.
    { rewrite dirs_map. apply FinFun.Injective_map_NoDup; [intros a b E; congruence|]. apply dnodes_nodup. apply HV. }
    assert (ES : st_items (q_subvolumes q) = []) by (unfold q, table; cbn [q_subvolumes st_items]; rewrite v_subvols; reflexivity).
    split; [rewrite ES; constructor|]. split; [reflexivity|]. split; [rewrite app_nil_r; reflexivity|]. intros n _ [].
  Qed.
  (** *** the mounted view *)
  Lemma ext_chain ps : forall off, Forall (piece_ok D f c) ps -> chain off (ext_list off ps) (off + zlen (concat (map piece_bytes ps))) /\ Forall (fun x => ~ is_inline x) (ext_list off ps).
  Proof.
    induction ps as [|p ps IH]; intros off H; [split; [cbn [ext_list chain map concat]; unfold zlen; cbn [length]; lia|constructor]|]. inversion H as [|? ? Hp Hps]; subst.
    assert (HL : 0 < piece_len p) by (destruct p; cbn [piece_len piece_ok] in *; lia). destruct (ext_list_len p ps ltac:(lia)) as [_ E2]. rewrite E2. destruct (IH (off + piece_len p) Hps) as [H1 H2]. replace (off + piece_len p + zlen (concat (map piece_bytes ps))) with (off + (piece_len p + zlen (concat (map piece_bytes ps)))) in H1 by lia.
    destruct p as [n|a d]; cbn [ext_list piece_len] in *; (split; [cbn [chain ext_off ext_len]; auto|constructor; [intros X; exact X|exact H2]]).
  Qed.
  Lemma v_inode v : In v (nodes V) -> has_inode q 5 (v_ino v) (attrs (v_ino v)).
  Proof. intros Hv. destruct (v_node _ Hv) as (_ & Hf & Htm & _). eexists. split; [exact (inode_at v Hv)|]. split; [exact (carries_exact _ Hf)|exact Htm]. Qed.
  Lemma v_mountable : no_empty V -> mountable q (dirs V).
  Proof.
    intros HE o d Hd. destruct (dirs_nodes V _ Hd) as (i & kids & E & Hv). assert (o = 5 /\ d = i) as [-> ->] by (split; congruence). split; [exists (attrs i); exact (v_inode _ Hv)|].
    intros e He. unfold q, table in He. cbn [q_dirItems st_items] in He. apply in_map_iff in He as (g & <- & Hg). pose proof (group_dir _ Hv) as EG. cbn [v_ino dir_of_v] in EG.
    assert (Hk : In (kd g) (map (name_item attrs i) kids)) by (rewrite <- EG; apply in_map; exact Hg). apply in_map_iff in Hk as ((n, w) & Ek & Hk). pose proof (name_says i kids _ Hv Hk) as (_ & S2 & S3). pose proof (kid_node i kids n w Hv Hk) as Hw.
    assert (Ed : i_data g = ser (dir_item_fields (di_of (n, w)))) by (unfold kd, name_item in Ek; unfold di_of; congruence). cbn [row snd]. rewrite Ed. cbn [snd] in S2, S3.
    exists (v_type w), (mkKey (v_ino w) 1 0), (attrs (v_ino w)). split; [exact S2|]. split; [exact S3|]. unfold child_key. cbn [KType ObjectID]. change (1 =? RootItemKey) with false. cbn iota. cbn [fst snd]. split; [exact (v_inode w Hw)|].
    destruct (v_node _ Hw) as (_ & Hf & _ & HB). destruct w as [j b|j t|j sub]; cbn [v_type v_ino] in *; [right; left|right; right|left; reflexivity].
    - split; [discriminate|]. split; [reflexivity|]. exists (exts b). split; [exact (exts_are j b Hw)|]. destruct HB as [HS HB]. destruct (content_len b HB) as [HL HL2]. rewrite HS. destruct b as [c0|size ps]; cbn [exts content] in *; [left; exists c0; split; [reflexivity|lia]|right].
      destruct HB as (B1 & B2 & B3). destruct (ext_chain ps 0 B3) as [X1 X2]. split; [destruct ps as [|[?|? ?] ?]; [destruct (HE j size Hw)|discriminate|discriminate]|]. split; [exact X2|]. eexists. split; [exact X1|]. lia.
    - split; [discriminate|]. split; [reflexivity|]. eexists. split; [exact (extent0_at _ _ Hw eq_refl)|]. exact (proj1 (inline_says j t Hf (link_small t HB))).
  Qed.
End Volume.

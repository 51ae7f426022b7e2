(** The index that recon builds answers as the table of SpecDisk.v says. *)
From Verif Require Import Go GoProofs Layout LayoutProofs SpecLayout LeafProofs StructProofs PropsLayout KeyFmt KeyProofs Bolt Store StoreProofs SpecStore RangeProofs PropsStore PropsRange Session PropsSession IoUtil Recon PropsRecon RangeItems Fs Recover SpecDisk.
From Coq Require Import ZifyBool ZifyNat ZifyN Sorted.
Ltac Zify.zify_post_hook ::= Z.div_mod_to_equations.

(** ** the newest versions *)
Lemma key_ltb_lt x y : key_ltb x y = true <-> key_lt x y.
Proof. unfold key_ltb, key_lt. lia. Qed.
Lemma same_keyb_eq x y : same_keyb x y = true <-> x = y.
Proof.
  unfold same_keyb. destruct x as [a b c], y as [a' b' c']. cbn [KType ObjectID KOffset]. split; intros H.
  - assert (b = b' /\ a = a' /\ c = c') by lia. destruct H0 as (-> & -> & ->). reflexivity.
  - injection H as -> -> ->. lia.
Qed.
Lemma klt_trans x y z : key_lt x y -> key_lt y z -> key_lt x z.
Proof. unfold key_lt. lia. Qed.
Lemma klt_irrefl x : ~ key_lt x x.
Proof. unfold key_lt. lia. Qed.
Lemma klt_total x y : key_lt x y \/ x = y \/ key_lt y x.
Proof.
  destruct (same_keyb x y) eqn:E; [right; left; apply same_keyb_eq; exact E|].
  unfold same_keyb in E. unfold key_lt. lia.
Qed.
Definition isorted (l : list insertion) : Prop := StronglySorted (fun i j => key_lt (i_key i) (i_key j)) l.
Lemma put_item_in i l : isorted l -> forall x, In x (put_item i l) <->
  (x = i /\ forall j, In j l -> i_key j = i_key i -> i_gen j <= i_gen i) \/ (In x l /\ (i_key x <> i_key i \/ i_gen i < i_gen x)).
Proof.
  intros H. induction H as [|j l Hs IH HF]; intros x; cbn [put_item].
  - cbn [In]. split; [intros [<-|[]]; left; split; [reflexivity|intros j []]|]. intros [[-> _]|[[] _]]. left. reflexivity.
  - rewrite Forall_forall in HF. destruct (key_ltb (i_key i) (i_key j)) eqn:E1.
    + apply key_ltb_lt in E1. assert (HN : forall y, In y (j :: l) -> i_key y <> i_key i).
      { intros y [<-|Hy] E; [rewrite E in E1; exact (klt_irrefl _ E1)|]. specialize (HF y Hy). rewrite E in HF. exact (klt_irrefl _ (klt_trans _ _ _ E1 HF)). }
      split.
      * intros [<-|Hx]; [left; split; [reflexivity|intros y Hy E; destruct (HN y Hy E)]|]. right. split; [exact Hx|left; exact (HN x Hx)].
      * intros [[-> _]|[Hx _]]; [left; reflexivity|right; exact Hx].
    + destruct (same_keyb (i_key i) (i_key j)) eqn:E2.
      * apply same_keyb_eq in E2. assert (HN : forall y, In y l -> i_key y <> i_key i).
        { intros y Hy E. specialize (HF y Hy). rewrite E, E2 in HF. exact (klt_irrefl _ HF). }
        destruct (i_gen i <? i_gen j) eqn:E3.
        -- split.
           ++ intros Hx. right. split; [exact Hx|]. destruct Hx as [<-|Hx]; [right; lia|left; exact (HN x Hx)].
           ++ intros [[-> Hj]|[Hx _]]; [|exact Hx]. exfalso. specialize (Hj j (or_introl eq_refl) (eq_sym E2)). lia.
        -- split.
           ++ intros [<-|Hx]; [left|right; split; [right; exact Hx|left; exact (HN x Hx)]]. split; [reflexivity|]. intros y [<-|Hy] E; [lia|destruct (HN y Hy E)].
           ++ intros [[-> Hj]|[[<-|Hx] Hc]]; [left; reflexivity|exfalso; destruct Hc as [Hc|Hc]; [apply Hc; congruence|lia]|right; exact Hx].
      * cbn [In]. rewrite IH. assert (HK : i_key j <> i_key i). { intros E. rewrite E in E2. pose proof (proj2 (same_keyb_eq (i_key i) (i_key i)) eq_refl). congruence. }
        split.
        -- intros [<-|[[-> Hj]|[Hx Hc]]]; [right; split; [left; reflexivity|left; exact HK]| |right; split; [right; exact Hx|exact Hc]].
           left. split; [reflexivity|]. intros y [<-|Hy] E; [destruct (HK E)|exact (Hj y Hy E)].
        -- intros [[-> Hj]|[[<-|Hx] Hc]]; [right; left; split; [reflexivity|intros y Hy; apply Hj; right; exact Hy]|left; reflexivity|right; right; split; [exact Hx|exact Hc]].
Qed.
Lemma put_item_sub i l x : In x (put_item i l) -> x = i \/ In x l.
Proof.
  induction l as [|j l IH]; cbn [put_item]; [intros [<-|[]]; left; reflexivity|].
  destruct (key_ltb (i_key i) (i_key j)); [intros [<-|H]; auto|].
  destruct (same_keyb (i_key i) (i_key j)).
  - destruct (i_gen i <? i_gen j); [intros H; right; exact H|intros [<-|H]; [left; reflexivity|right; right; exact H]].
  - intros [<-|H]; [right; left; reflexivity|]. destruct (IH H) as [->|H']; [left; reflexivity|right; right; exact H'].
Qed.
Lemma put_item_sorted i l : isorted l -> isorted (put_item i l).
Proof.
  intros H. induction H as [|j l Hs IH HF]; cbn [put_item]; [constructor; [constructor|constructor]|].
  rewrite Forall_forall in HF. destruct (key_ltb (i_key i) (i_key j)) eqn:E1.
  - apply key_ltb_lt in E1. constructor; [constructor; [exact Hs|apply Forall_forall; exact HF]|]. constructor; [exact E1|].
    apply Forall_forall. intros y Hy. exact (klt_trans _ _ _ E1 (HF y Hy)).
  - destruct (same_keyb (i_key i) (i_key j)) eqn:E2.
    + apply same_keyb_eq in E2. destruct (i_gen i <? i_gen j); constructor; try exact Hs; apply Forall_forall; [exact HF|]. intros y Hy. rewrite E2. exact (HF y Hy).
    + constructor; [exact IH|]. apply Forall_forall. intros y Hy. apply put_item_sub in Hy as [->|Hy]; [|exact (HF y Hy)].
      destruct (klt_total (i_key i) (i_key j)) as [L|[E|L]]; [|rewrite E, (proj2 (same_keyb_eq _ _) eq_refl) in E2; discriminate|exact L].
      apply key_ltb_lt in L. congruence.
Qed.
(** the newest item with its key in [l] *)
Definition newest (l : list insertion) (i : insertion) : Prop :=
  exists a c, l = a ++ i :: c /\ (forall j, In j a -> i_key j = i_key i -> i_gen j <= i_gen i) /\
    (forall j, In j c -> i_key j = i_key i -> i_gen j < i_gen i).
Lemma fold_newest l : let acc := fold_left (fun l i => put_item i l) l [] in
  isorted acc /\ (forall i, In i acc -> newest l i) /\ (forall j, In j l -> exists i, In i acc /\ i_key i = i_key j /\ i_gen j <= i_gen i).
Proof.
  cbv zeta. induction l as [|i l IH] using rev_ind; [cbn; split; [constructor|split; intros ? []]|].
  rewrite fold_left_app. cbn [fold_left]. destruct IH as (S1 & S2 & S3). set (acc := fold_left _ l []) in *. clearbody acc.
  split; [apply put_item_sorted; exact S1|]. split.
  - intros x Hx. apply (put_item_in i acc S1) in Hx as [[-> Hj]|[Hx Hc]].
    + exists l, []. split; [reflexivity|]. split; [|intros j []]. intros j Hl E. destruct (S3 j Hl) as (i' & Hi' & E' & Hg). specialize (Hj i' Hi'). rewrite E' in Hj. specialize (Hj E). lia.
    + destruct (S2 x Hx) as (a & c & -> & A & B). exists a, (c ++ [i]). split; [rewrite <- app_assoc; reflexivity|]. split; [exact A|].
      intros j Hj E. apply in_app_or in Hj as [Hj|[<-|[]]]; [exact (B j Hj E)|]. destruct Hc as [Hc|Hc]; [congruence|exact Hc].
  - assert (HI : exists x, In x (put_item i acc) /\ i_key x = i_key i /\ i_gen i <= i_gen x /\ forall y, In y acc -> i_key y = i_key i -> i_gen y <= i_gen x).
    { assert (D : (forall j, In j acc -> i_key j = i_key i -> i_gen j <= i_gen i) \/ exists j, In j acc /\ i_key j = i_key i /\ i_gen i < i_gen j).
      { clear. induction acc as [|y acc IH]; [left; intros j []|]. destruct IH as [IH|(j & Hj & E)]; [|right; exists j; split; [right; exact Hj|exact E]].
        destruct (same_keyb (i_key y) (i_key i)) eqn:E1.
        - apply same_keyb_eq in E1. destruct (i_gen i <? i_gen y) eqn:E2; [right; exists y; split; [left; reflexivity|split; [exact E1|lia]]|].
          left. intros j [<-|Hj] E; [lia|exact (IH j Hj E)].
        - left. intros j [<-|Hj] E; [|exact (IH j Hj E)]. rewrite (proj2 (same_keyb_eq _ _) E) in E1. discriminate. }
      destruct D as [D|(j & Hj & E & Hg)].
      - exists i. split; [apply (put_item_in i acc S1); left; auto|]. split; [reflexivity|]. split; [lia|exact D].
      - exists j. split; [apply (put_item_in i acc S1); right; split; [exact Hj|right; exact Hg]|]. split; [exact E|]. split; [lia|].
        intros y Hy Ey. assert (y = j); [|subst; lia].
        clear -S1 Hj Hy E Ey. induction S1 as [|z acc S1 IH HF]; [destruct Hj|]. rewrite Forall_forall in HF.
        destruct Hj as [->|Hj], Hy as [->|Hy]; [reflexivity| | |exact (IH Hj Hy)].
        + specialize (HF y Hy). rewrite E, Ey in HF. destruct (klt_irrefl _ HF).
        + specialize (HF j Hj). rewrite E, Ey in HF. destruct (klt_irrefl _ HF). }
    intros j Hj. apply in_app_or in Hj as [Hj|[<-|[]]].
    + destruct (S3 j Hj) as (x & Hx & E & Hg). destruct (same_keyb (i_key x) (i_key i)) eqn:E1.
      * apply same_keyb_eq in E1. destruct HI as (y & Hy & Ey & _ & Hm). exists y. split; [exact Hy|]. split; [congruence|]. specialize (Hm x Hx E1). lia.
      * exists x. split; [|auto]. apply (put_item_in i acc S1). right. split; [exact Hx|]. left. intros E2. rewrite (proj2 (same_keyb_eq _ _) E2) in E1. discriminate.
    + destruct HI as (y & Hy & Ey & Hg & _). exists y. auto.
Qed.
Lemma filter_split {A} (f : A -> bool) : forall l a x c, filter f l = a ++ x :: c -> exists a' c', l = a' ++ x :: c' /\ filter f a' = a /\ filter f c' = c /\ f x = true.
Proof.
  induction l as [|y l IH]; intros a x c H; cbn [filter] in H; [destruct a; discriminate|]. destruct (f y) eqn:E.
  - destruct a as [|z a]; injection H as -> H.
    + exists [], l. cbn. auto.
    + destruct (IH a x c H) as (a' & c' & -> & <- & <- & Fx). exists (z :: a'), c'. cbn [filter app]. rewrite E. auto.
  - destruct (IH a x c H) as (a' & c' & -> & <- & <- & Fx). exists (y :: a'), c'. cbn [filter app]. rewrite E. auto.
Qed.
Lemma tree_sorted is o : isorted (tree_items is o).
Proof. exact (proj1 (fold_newest _)). Qed.
Lemma tree_newest is o i : In i (tree_items is o) -> i_owner i = o /\ exists a c, is = a ++ i :: c /\
  (forall j, In j a -> i_owner j = o -> i_key j = i_key i -> i_gen j <= i_gen i) /\
  (forall j, In j c -> i_owner j = o -> i_key j = i_key i -> i_gen j < i_gen i).
Proof.
  intros H. apply (proj1 (proj2 (fold_newest _))) in H as (a & c & H & A & B). apply filter_split in H as (a' & c' & -> & <- & <- & Fx).
  split; [lia|]. exists a', c'. split; [reflexivity|]. split; intros j Hj Ho; [apply A|apply B]; apply filter_In; split; [exact Hj|lia|exact Hj|lia].
Qed.
Lemma tree_has is o j : In j is -> i_owner j = o -> exists i, In i (tree_items is o) /\ i_key i = i_key j /\ i_gen j <= i_gen i.
Proof. intros H Ho. apply (proj2 (proj2 (fold_newest (filter (fun i => i_owner i =? o) is)))). apply filter_In. split; [exact H|lia]. Qed.
Lemma isorted_filter f l : isorted l -> isorted (filter f l).
Proof.
  intros H. induction H as [|j l Hs IH HF]; cbn [filter]; [constructor|]. destruct (f j); [|exact IH]. constructor; [exact IH|].
  rewrite Forall_forall in *. intros y Hy. apply filter_In in Hy as [Hy _]. exact (HF y Hy).
Qed.
Lemma isorted_keys l : isorted l -> StronglySorted key_lt (map i_key l).
Proof.
  intros H. induction H as [|j l Hs IH HF]; cbn [map]; constructor; [exact IH|]. rewrite Forall_forall in *. intros y Hy. apply in_map_iff in Hy as (z & <- & Hz). exact (HF z Hz).
Qed.

(** ** ranges over newest versions of one generation *)
Lemma range_latest b o first last ks g fuel :
  opened b -> is_u64 o -> o < max64 -> wf_Key first -> KOffset first = 0 -> wf_Key last -> data_ok b o -> no_max_gen b o -> no_wrap b o last ->
  keys_between b o first last ks -> (length b + 1 < fuel)%nat ->
  match ks with [] => False | k :: _ => KType k = KType first /\ ObjectID k = ObjectID first end ->
  (forall k, In k ks -> exists v, latest b o k g v) ->
  exists L, range_items fuel b (mkRangeFrom b max64 o first last) = Ok L /\
    Forall2 (fun k e => exists v, fst e = newIndexKey o k g /\ latest b o k g v /\ valueData v = Ok (snd e)) ks L.
Proof.
  intros Op Ho Hom WF F0 WL ND NM NW KB Hfuel Hh HU. pose proof Op as [W _].
  assert (E0 : mkKey (ObjectID first) (KType first) 0 = first) by (destruct first; cbn in *; congruence).
  assert (KB' : keys_between b o (mkKey (ObjectID first) (KType first) 0) last ks) by (rewrite E0; exact KB).
  pose proof (range_exact b max64 o first last fuel ks (keyed (fun k d acc => Ok (acc ++ [(k, d)], false))) [] Op Ho Hom WF WL max64_u64 ND NM NW (or_introl eq_refl) KB' Hfuel) as H.
  destruct ks as [|k0 ks]; [destruct Hh|]. destruct Hh as [T1 T2]. rewrite T1, T2, !Z.eqb_refl in H. cbn [andb] in H.
  destruct H as (g' & v & (Hst & Hg' & Hsel) & HR).
  assert (g' = g).
  { destruct (HU k0 (or_introl eq_refl)) as (v0 & A & B & C). specialize (C g' v Hg' Hst).
    destruct Hsel as [[Hsel _]|[_ Hsel]]; [|specialize (Hsel g v0 B A); lia].
    unfold is_u64, max64 in *. assert (g' = 2^64 - 1) by lia. lia. }
  subst g'. unfold range_items. rewrite HR. clear HR Hsel Hst.
  assert (G : forall l acc, (forall k, In k l -> wf_Key k /\ exists v, latest b o k g v) ->
    exists L, fold_range (keyed (fun k d acc => Ok (acc ++ [(k, d)], false))) (newIndexKey o last max64) (yields b o g l) acc = Ok (acc ++ L) /\
    Forall2 (fun k e => exists v, fst e = newIndexKey o k g /\ latest b o k g v /\ valueData v = Ok (snd e)) l L).
  { induction l as [|k l IH]; intros acc HA; cbn [yields fold_range].
    - exists []. split; [rewrite app_nil_r; reflexivity|constructor].
    - destruct (HA k (or_introl eq_refl)) as (Hwf & w & Hlt). pose proof Hlt as (Hst & _). pose proof Hst as G. apply get_In in G; [|exact W]. rewrite G. cbn [fold_range].
      destruct (ND _ _ _ Hwf Hg' Hst) as [d Hd]. rewrite Hd. cbn [rbind]. unfold keyed at 1. cbn [r_key rbind].
      destruct (IH (acc ++ [(newIndexKey o k g, d)])) as (L & E & F); [intros k' Hk'; apply HA; right; exact Hk'|].
      exists ((newIndexKey o k g, d) :: L). split; [rewrite E, <- app_assoc; reflexivity|]. constructor; [|exact F]. exists w. auto. }
  apply (G (k0 :: ks) []). intros k Hk. split; [|exact (HU k Hk)]. apply KB in Hk as ((Hwf & _) & _). exact Hwf.
Qed.
Lemma range_none b o first last fuel : opened b -> is_u64 o -> o < max64 -> wf_Key first -> data_ok b o ->
  (forall k, present b o k -> KType k < 255) -> group_empty b o first ->
  range_items (S fuel) b (mkRangeFrom b max64 o first last) = Ok [].
Proof.
  intros Op Ho Hom WF ND HT HE. unfold range_items, range_for.
  destruct (range_start b max64 o first last Op Ho Hom WF max64_u64 ND) as [(k & g & v & d & -> & Hk & Hg & Hst & Hd & Hsel & Hgrp)|[_ ->]]; cbn [rbind].
  - destruct Hgrp as [(A & B & C & _)|[_ ->]]; [destruct (HE k A B C)|]. assert (P : present b o KL0) by (split; [exact Hk|exists g, v; auto]).
    specialize (HT _ P). cbn in HT. lia.
  - reflexivity.
Qed.
Lemma stream_of_items fuel b init L : range_items fuel b init = Ok L -> stream_of fuel b init = mkStream L (Ok tt).
Proof.
  unfold range_items, range_for, stream_of. destruct init as [[r d]| |]; cbn [rbind]; try discriminate.
  enough (G : forall fuel r d acc L, range_loop fuel b r d (keyed (fun k d acc => Ok (acc ++ [(k, d)], false))) acc = Ok L ->
    exists L', L = acc ++ L' /\ stream_loop fuel b r d = mkStream L' (Ok tt)).
  { intros H. destruct (G _ _ _ _ _ H) as (L' & -> & E). exact E. }
  clear. induction fuel as [|fuel IH]; intros r d acc L H; [discriminate|]. cbn [range_loop stream_loop] in *. destruct (HasNext r) eqn:HN.
  - unfold keyed at 1 in H. unfold HasNext in HN. destruct (r_key r) as [k|] eqn:EK; [|discriminate]. cbn [rbind] in H.
    destruct (Range_Next b r) as [[r' d']| |] eqn:ER; cbn [rbind] in H; try discriminate.
    destruct (IH r' d' _ L H) as (L' & -> & HL). exists ((k, d) :: L'). split; [rewrite <- app_assoc; reflexivity|]. rewrite HL. reflexivity.
  - injection H as <-. exists []. split; [rewrite app_nil_r; reflexivity|reflexivity].
Qed.

  Lemma last_same o k g : forall l, (exists i, In i l /\ same_tuple i o k g) -> exists a i c, l = a ++ i :: c /\ same_tuple i o k g /\ forall j, In j c -> ~ same_tuple j o k g.
  Proof.
    assert (D : forall i, same_tuple i o k g \/ ~ same_tuple i o k g).
    { intros i. unfold same_tuple. destruct (Z.eq_dec (i_owner i) o); [|tauto]. destruct (Z.eq_dec (i_gen i) g); [|tauto].
      destruct (same_keyb (i_key i) k) eqn:E; [left; apply same_keyb_eq in E; auto|]. right. intros (_ & H & _). apply same_keyb_eq in H. congruence. }
    induction l as [|x l IH]; intros (i & Hi & Hs); [destruct Hi|].
    assert (DL : (exists i, In i l /\ same_tuple i o k g) \/ ~ (exists i, In i l /\ same_tuple i o k g)).
    { clear -D. induction l as [|y l [(j & A & B)|IH]]; [right; intros (? & [] & _)|left; exists j; split; [right; exact A|exact B]|].
      destruct (D y) as [Dy|Dy]; [left; exists y; split; [left; reflexivity|exact Dy]|]. right. intros (j & [->|Hj] & B); [exact (Dy B)|]. apply IH. exists j. auto. }
    destruct DL as [DL|DL]; [destruct (IH DL) as (a & j & c & -> & A & B); exists (x :: a), j, c; auto|].
    destruct Hi as [->|Hi]; [|destruct DL; exists i; auto]. exists [], i, l. split; [reflexivity|]. split; [exact Hs|]. intros j Hj Hj'. apply DL. exists j. auto.
  Qed.
  Lemma tree_in is i o : In i (tree_items is o) -> In i is /\ i_owner i = o.
  Proof. intros H. destruct (tree_newest is o i H) as (Ho & a & c & -> & _). split; [apply in_or_app; right; left; reflexivity|exact Ho]. Qed.
  Lemma knum_le o k o' k' : wf_Key k -> wf_Key k' -> knum o k <= knum o' k' -> o < o' \/ (o = o' /\ key_le k k').
  Proof.
    intros (A1 & A2 & A3) (B1 & B2 & B3) H. unfold key_le. destruct (klt_total k k') as [L|[L|L]].
    - unfold knum, key_lt, is_u64, is_u8 in *. assert (o <= o') by lia. lia.
    - unfold knum, is_u64, is_u8 in *. subst k'. assert (o <= o') by lia. destruct (Z.eq_dec o o'); [right; split; [assumption|left; reflexivity]|left; lia].
    - left. unfold knum, key_lt, is_u64, is_u8 in *. lia.
  Qed.
Lemma Forall2_in_r {A B} (P : A -> B -> Prop) l m : Forall2 P l m -> forall y, In y m -> exists x, In x l /\ P x y.
Proof. induction 1 as [|x y l m H F IH]; intros z Hz; [destruct Hz|]. destruct Hz as [<-|Hz]; [exists x; split; [left; reflexivity|exact H]|]. destruct (IH z Hz) as (x' & A1 & A2). exists x'. split; [right; exact A1|exact A2]. Qed.
Lemma range_loop_ext {S} (f g : Range -> slice -> S -> Res (S * bool)) : (forall r d s k, r_key r = Some k -> f r d s = g r d s) ->
  forall fuel b r d s, range_loop fuel b r d f s = range_loop fuel b r d g s.
Proof.
  intros H. induction fuel as [|fuel IH]; intros b r d s; [reflexivity|]. cbn [range_loop]. destruct (HasNext r) eqn:HN; [|reflexivity].
  unfold HasNext in HN. destruct (r_key r) as [k|] eqn:EK; [|discriminate]. rewrite (H r d s k EK). destruct (g r d s) as [[s' brk]| |]; cbn [rbind]; try reflexivity.
  destruct brk; [reflexivity|]. destruct (Range_Next b r) as [[r' d']| |]; cbn [rbind]; try reflexivity. apply IH.
Qed.
Definition stripe_of (k : list byte) (c : slice) (m : list stripeMapEntry) : Res (list stripeMapEntry * bool) :=
  n <- Chunk_NumStripes c ;;
  if n =? 0 then Ok (m, false)
  else s <- Chunk_Stripe c 0 ;; d <- Stripe_DevID s ;; o <- Stripe_Offset s ;; Ok (m ++ [mkStripe (KOffset (ik_Key k)) d o], false).
Lemma build_items fuel b gen L : range_items fuel b (Chunks b gen) = Ok L -> build_stripeMap fuel b gen = fold_items stripe_of L [].
Proof.
  intros H. unfold build_stripeMap. rewrite <- (range_for_items _ _ _ _ H). unfold range_for. destruct (Chunks b gen) as [[r d]| |]; cbn [rbind]; try reflexivity.
  apply range_loop_ext. intros r' d' s k E. unfold stripe_body, keyed, stripe_of. rewrite E. reflexivity.
Qed.
(** ** the index built from the items *)
Section Built.
  Variables (is : list insertion) (m : list byte) (cs : list (Z * d_chunk)).
  Let b := fold_left put_ins is [(metadataKey, m)].
  Hypothesis HW : Forall wf_ins is.
  Hypothesis HV : forall i, In i is -> insert_value (i_item i) (i_data i) = i_item i ++ i_data i /\ valueData (i_item i ++ i_data i) = Ok (sl (i_data i)).
  Hypothesis HO : forall i, In i is -> i_owner i < max64.
  Hypothesis HD : orderly is.
  Hypothesis HC : chunks_are is cs.

  Lemma wf0 : wf_bucket [(metadataKey, m)].
  Proof. split; [constructor; constructor|]. constructor; [apply newIndexKey_length|constructor]. Qed.
  Lemma b_opened : opened b.
  Proof. apply puts_opened; [|exact HW]. split; [exact wf0|]. exists m. left. reflexivity. Qed.
  Lemma b_stored o k g v : wf_tuple o k g -> o < max64 -> stored b o k g v <->
    exists a i c, is = a ++ i :: c /\ same_tuple i o k g /\ v = i_item i ++ i_data i /\ (forall j, In j c -> ~ same_tuple j o k g).
  Proof.
    intros WT Ho. unfold b. rewrite (stored_after is _ o k g v wf0 HW WT). split.
    - intros [(a & i & c & E & A & -> & B)|[[H|[]] _]].
      + exists a, i, c. split; [exact E|]. split; [exact A|]. split; [|exact B]. apply HV. rewrite E. apply in_or_app. right. left. reflexivity.
      + exfalso. unfold metadataKey in H. assert (E : newIndexKey max64 KL0 max64 = newIndexKey o k g) by congruence. apply newIndexKey_inj in E; [|repeat split; try exact max64_u64; unfold is_u64, is_u8; cbn; lia|exact WT].
        destruct E as (E & _). lia.
    - intros (a & i & c & E & A & -> & B). left. exists a, i, c. split; [exact E|]. split; [exact A|]. split; [|exact B]. symmetry. apply HV. rewrite E. apply in_or_app. right. left. reflexivity.
  Qed.
  Lemma wf_of i : In i is -> wf_tuple (i_owner i) (i_key i) (i_gen i).
  Proof. intros H. rewrite Forall_forall in HW. exact (proj1 (HW i H)). Qed.
  Lemma b_present o k : o < max64 -> is_u64 o -> present b o k <-> exists i, In i is /\ i_owner i = o /\ i_key i = k.
  Proof.
    intros Ho Hu. split.
    - intros (Hk & g & v & Hg & Hst). apply b_stored in Hst as (a & i & c & E & (A1 & A2 & A3) & _); [|unfold wf_tuple; auto|exact Ho].
      exists i. rewrite E. split; [apply in_or_app; right; left; reflexivity|auto].
    - intros (i & Hi & Eo & Ek). pose proof (wf_of i Hi) as WT. rewrite Eo, Ek in WT. split; [apply WT|].
      destruct (last_same o k (i_gen i) is) as (a & j & c & E & A & B); [exists i; unfold same_tuple; auto|].
      exists (i_gen i), (i_item j ++ i_data j). split; [apply WT|]. apply b_stored; [exact WT|exact Ho|]. exists a, j, c. auto.
  Qed.
  Lemma b_latest i o : In i (tree_items is o) -> latest b o (i_key i) (i_gen i) (i_item i ++ i_data i).
  Proof.
    intros H. pose proof (tree_in is i o H) as [Hi Eo]. pose proof (wf_of i Hi) as WT. rewrite Eo in WT. pose proof (HO i Hi) as Hom. rewrite Eo in Hom.
    destruct (tree_newest is o i H) as (_ & a & c & E & A & B). split; [|split; [apply WT|]].
    - apply b_stored; [exact WT|exact Hom|]. exists a, i, c. split; [exact E|]. split; [unfold same_tuple; auto|]. split; [reflexivity|].
      intros j Hj (J1 & J2 & J3). specialize (B j Hj J1 J2). lia.
    - intros g' v' Hg' Hst. apply b_stored in Hst as (a' & j & c' & E' & (J1 & J2 & J3) & _); [|split; [apply WT|split; [apply WT|exact Hg']]|exact Hom].
      assert (Hj : In j (a ++ i :: c)) by (rewrite <- E, E'; apply in_or_app; right; left; reflexivity).
      apply in_app_or in Hj as [Hj|[<-|Hj]]; [specialize (A j Hj J1 J2); lia|lia|specialize (B j Hj J1 J2); lia].
  Qed.
  Lemma b_data o : o < max64 -> is_u64 o -> data_ok b o.
  Proof.
    intros Ho Hu k g v Hk Hg Hst. apply b_stored in Hst as (a & i & c & E & _ & -> & _); [|unfold wf_tuple; auto|exact Ho].
    exists (sl (i_data i)). apply HV. rewrite E. apply in_or_app. right. left. reflexivity.
  Qed.
  Lemma b_nomax o : o < max64 -> is_u64 o -> no_max_gen b o.
  Proof.
    intros Ho Hu k v Hk Hst. apply b_stored in Hst as (a & i & c & E & (_ & _ & A3) & _); [|unfold wf_tuple; auto using max64_u64|exact Ho].
    assert (Hi : In i is) by (rewrite E; apply in_or_app; right; left; reflexivity). destruct (proj1 (proj2 HD) i Hi) as [G _]. unfold max64 in A3. lia.
  Qed.
  Lemma b_types o k : o < max64 -> is_u64 o -> present b o k -> KType k < 255.
  Proof. intros Ho Hu H. apply b_present in H as (i & Hi & _ & <-); try assumption. apply (proj1 (proj2 HD) i Hi). Qed.
  Lemma b_entry N : In N b -> N = (metadataKey, m) \/ exists i, In i is /\ fst N = newIndexKey (i_owner i) (i_key i) (i_gen i).
  Proof.
    unfold b. clear HC HD HO HV HW b cs. induction is as [|i l IH] using rev_ind; intros HN; [cbn [fold_left In] in HN; destruct HN as [<-|[]]; left; reflexivity|].
    rewrite fold_left_app in HN. cbn [fold_left] in HN. unfold put_ins at 1 in HN.
    assert (G : forall bb k v, In N (put bb k v) -> In N bb \/ fst N = k).
    { clear. induction bb as [|[k' v'] bb IH]; intros k v H; cbn [put] in H; [destruct H as [<-|[]]; right; reflexivity|].
      destruct (bytes_cmp k k'); [destruct H as [<-|H]; [right; reflexivity|left; right; exact H]|destruct H as [<-|H]; [right; reflexivity|left; exact H]|].
      destruct H as [<-|H]; [left; left; reflexivity|]. destruct (IH k v H) as [H'|H']; [left; right; exact H'|right; exact H']. }
    apply G in HN as [HN|HN].
    - destruct (IH HN) as [E|(j & Hj & E)]; [left; exact E|right; exists j; split; [apply in_or_app; left; exact Hj|exact E]].
    - right. exists i. split; [apply in_or_app; right; left; reflexivity|exact HN].
  Qed.
  Lemma b_nowrap o last : o < max64 -> is_u64 o -> separate is o last -> no_wrap b o last.
  Proof.
    intros Ho Hu [(i & Hi & Eo & HL)|H].
    - right. exists (i_key i). split; [apply b_present; try assumption; exists i; auto|exact HL].
    - left. intros N HN Hlt Hmin g v Hg Hst. apply b_entry in HN as [->|(j & Hj & E)].
      + cbn [fst] in *. destruct (ik_built max64 KL0 max64) as (_ & _ & _ & _ & _ & E); [repeat split; try exact max64_u64; unfold is_u64, is_u8; cbn; lia|].
        unfold metadataKey in Hst. rewrite E in Hst. assert (P : present b o KL0) by (split; [repeat split; unfold is_u64, is_u8, max64; cbn; lia|exists g, v; auto]).
        apply b_types in P; try assumption. cbn in P. lia.
      + rewrite E in *. destruct (ik_built _ _ _ (wf_of j Hj)) as (E1 & _ & _ & _ & E2 & E3). rewrite E1, E3 in *.
        assert (P : present b o (i_key j)) by (split; [apply (wf_of j Hj)|exists g, v; auto]). apply b_present in P as (i & Hi & Eo & Ek); try assumption.
        apply (H j Hj Hlt) in Hi; [congruence| |exact Eo]. intros e He Hoe. pose proof (wf_of e He) as WTe. pose proof (wf_of j Hj) as WTj.
        assert (PE : present b (i_owner e) (i_key e)) by (apply b_present; [exact (HO e He)|apply WTe|exists e; auto]). destruct PE as (_ & ge & ve & Hge & Hse).
        specialize (Hmin _ Hse). cbn [fst] in Hmin. assert (WTe' : wf_tuple (i_owner e) (i_key e) ge) by (split; [apply WTe|split; [apply WTe|exact Hge]]).
        rewrite (proj1 (ik_built _ _ _ WTe')) in Hmin. specialize (Hmin Hoe). rewrite leb33 in Hmin by apply newIndexKey_length. rewrite !newIndexKey_num in Hmin by assumption. apply Z.leb_le in Hmin.
        apply knum_le; [apply WTj|apply WTe|]. unfold num in Hmin. destruct WTj as (_ & _ & G1). clear -Hmin G1 Hge. revert Hmin. generalize (knum (i_owner j) (i_key j)) (knum (i_owner e) (i_key e)). intros x y. unfold is_u64 in *. lia.
  Qed.

  Lemma latest_unique o k g v g' v' : latest b o k g v -> latest b o k g' v' -> g = g' /\ v = v'.
  Proof.
    intros (A & B & C) (A' & B' & C'). assert (g = g') by (specialize (C g' v' B' A'); specialize (C' g v B A); lia). subst g'. split; [reflexivity|].
    exact (stored_inj b o k g v v' (proj1 b_opened) A A').
  Qed.
  Definition part (f : Key -> bool) (o : Z) : list insertion := filter (fun i => f (i_key i)) (tree_items is o).
  Lemma part_keys f o lo hi : o < max64 -> is_u64 o -> (forall k, wf_Key k -> f k = true <-> key_le lo k /\ key_le k hi) ->
    keys_between b o lo hi (map i_key (part f o)).
  Proof.
    intros Ho Hu Hf. split; [apply isorted_keys, isorted_filter, tree_sorted|]. intros k. split.
    - intros Hk. apply in_map_iff in Hk as (i & <- & Hi). apply filter_In in Hi as [Hi E]. pose proof (tree_in is i o Hi) as [Hi' Eo].
      pose proof (wf_of i Hi') as WT. split; [apply b_present; try assumption; exists i; auto|]. apply Hf; [apply WT|exact E].
    - intros (HP & HL). assert (Hk : wf_Key k) by apply HP. apply b_present in HP as (j & Hj & Eo & <-); try assumption. destruct (tree_has is o j Hj Eo) as (i & Hi & Ei & _).
      rewrite <- Ei. apply in_map. apply filter_In. split; [exact Hi|]. rewrite Ei. apply Hf; assumption.
  Qed.
  Lemma part_rows f o lo hi fuel : o < max64 -> is_u64 o -> wf_Key lo -> KOffset lo = 0 -> wf_Key hi -> (forall k, wf_Key k -> f k = true <-> key_le lo k /\ key_le k hi) ->
    one_generation (part f o) -> separate is o hi -> match part f o with [] => False | i :: _ => KType (i_key i) = KType lo /\ ObjectID (i_key i) = ObjectID lo end ->
    (length b + 1 < fuel)%nat -> range_items fuel b (mkRangeFrom b max64 o lo hi) = Ok (map row (part f o)).
  Proof.
    intros Ho Hu WL L0 WH Hf HG HS HH Hfuel. destruct (part f o) as [|i0 l] eqn:EP; [destruct HH|].
    assert (HL : forall i, In i (i0 :: l) -> i_owner i = o /\ In i is /\ latest b o (i_key i) (i_gen i0) (i_item i ++ i_data i)).
    { intros i Hi. pose proof Hi as Hi2. rewrite <- EP in Hi2. apply filter_In in Hi2 as [Hi2 _]. destruct (tree_in is i o Hi2) as [A B]. split; [exact B|]. split; [exact A|].
      rewrite <- (HG i i0 Hi (or_introl eq_refl)). apply b_latest. exact Hi2. }
    destruct (range_latest b o lo hi (map i_key (i0 :: l)) (i_gen i0) fuel b_opened Hu Ho WL L0 WH (b_data o Ho Hu) (b_nomax o Ho Hu) (b_nowrap o hi Ho Hu HS)) as (L & EL & F2).
    - rewrite <- EP. apply part_keys; assumption.
    - exact Hfuel.
    - exact HH.
    - intros k Hk. apply in_map_iff in Hk as (i & <- & Hi). eexists. exact (proj2 (proj2 (HL i Hi))).
    - rewrite EL. f_equal. assert (HG' : forall i, In i (i0 :: l) -> i_gen i = i_gen i0) by (intros i Hi; apply HG; [exact Hi|left; reflexivity]).
      clear EL HH EP HG. revert L F2 HL HG'. generalize (i_gen i0) as g. generalize (i0 :: l) as xs. clear i0 l. intros xs g.
      induction xs as [|i xs IH]; intros L F2 HL HG; cbn [map] in *; inversion F2 as [|? e ? L' (v & E1 & E2 & E3) F2']; subst; [reflexivity|].
      f_equal; [|apply IH; [exact F2'|intros j Hj; apply HL; right; exact Hj|intros j Hj; apply HG; right; exact Hj]].
      destruct (HL i (or_introl eq_refl)) as (A & B & C). destruct (latest_unique _ _ _ _ _ _ E2 C) as [_ ->]. rewrite (proj2 (HV i B)) in E3. injection E3 as E3.
      destruct e as [ek ed]. cbn [fst snd] in *. unfold row. rewrite A, (HG i (or_introl eq_refl)). congruence.
  Qed.

  Definition kin (t id : Z) (k : Key) : bool := (KType k =? t) && (ObjectID k =? id).
  Lemma kin_between t id k : wf_Key k -> kin t id k = true <-> key_le (mkKey id t 0) k /\ key_le k (mkKey id t max64).
  Proof.
    intros (A & B & C). unfold kin, key_le, key_lt. cbn [KType ObjectID KOffset]. unfold is_u64, is_u8, max64 in *. split.
    - intros H. assert (KType k = t /\ ObjectID k = id) as [<- <-] by lia. split.
      + destruct (Z.eq_dec (KOffset k) 0) as [E|E]; [left; destruct k as [k1 k2 k3]; cbn [KType ObjectID KOffset] in *; congruence|right; lia].
      + destruct (Z.eq_dec (KOffset k) (2^64-1)) as [E|E]; [left; destruct k as [k1 k2 k3]; cbn [KType ObjectID KOffset] in *; congruence|right; lia].
    - intros [[E|H1] [E'|H2]]; try (rewrite <- E); try (rewrite E'); cbn [KType ObjectID KOffset]; lia.
  Qed.
  Lemma wf_lo t id : is_u8 t -> is_u64 id -> wf_Key (mkKey id t 0).
  Proof. intros A B. split; [exact B|]. split; [exact A|]. cbn [KOffset]; unfold is_u64; lia. Qed.
  Lemma wf_hi t id : is_u8 t -> is_u64 id -> wf_Key (mkKey id t max64).
  Proof. intros A B. split; [exact B|]. split; [exact A|]. exact max64_u64. Qed.
  (** ranges over (owner, type, object id) *)
  Lemma group_rows o t id fuel : o < max64 -> is_u64 o -> is_u64 id -> (t = 84 \/ t = 108 \/ t = 228) -> (length b + 1 < fuel)%nat ->
    range_items fuel b (RangeAll b max64 o t id) = Ok (map row (group is o t id)).
  Proof.
    intros Ho Hu Hi Ht Hfuel. assert (H8 : is_u8 t) by (unfold is_u8; lia). assert (Eu : u8 t = t) by (unfold u8; apply Z.mod_small; exact H8).
    unfold RangeAll, KF2, KL2. rewrite Eu. change (group is o t id) with (part (kin t id) o).
    destruct (part (kin t id) o) as [|i0 l] eqn:EP.
    - destruct fuel as [|fuel]; [lia|]. apply range_none; [exact b_opened|exact Hu|exact Ho|apply wf_lo; assumption|exact (b_data o Ho Hu)|intros k; apply b_types; assumption|].
      intros k HP HT HI. cbn [KType ObjectID] in *. pose proof (part_keys (kin t id) o (mkKey id t 0) (mkKey id t max64) Ho Hu (kin_between t id)) as [_ KB]. rewrite EP in KB. cbn [map] in KB.
      apply (KB k). split; [exact HP|]. apply kin_between; [apply HP|]. unfold kin. lia.
    - destruct (proj1 (proj2 (proj2 HD)) o t id Ht) as [G1 G2]; [change (group is o t id) with (part (kin t id) o); rewrite EP; discriminate|].
      rewrite <- EP. apply part_rows; try assumption; [apply wf_lo; assumption|reflexivity|apply wf_hi; assumption|apply kin_between|].
      rewrite EP. assert (H0 : In i0 (part (kin t id) o)) by (rewrite EP; left; reflexivity). apply filter_In in H0 as [_ H0]. unfold kin in H0. cbn [KType ObjectID]. lia.
  Qed.
  Definition vin (k : Key) : bool := (KType k =? 132) && (256 <=? ObjectID k) && (ObjectID k <=? 2^64 - 256).
  Lemma vin_between k : wf_Key k -> vin k = true <-> key_le subvol_first k /\ key_le k subvol_last.
  Proof.
    intros (A & B & C). unfold vin, key_le, key_lt, subvol_first, subvol_last. cbn [KType ObjectID KOffset]. unfold is_u64, is_u8 in *. split.
    - intros H. assert (KType k = 132 /\ 256 <= ObjectID k <= 2^64 - 256) as [T H'] by lia. split.
      + destruct (Z.eq_dec (ObjectID k) 256); [|right; lia]. destruct (Z.eq_dec (KOffset k) 0) as [E|E]; [left; destruct k as [k1 k2 k3]; cbn [KType ObjectID KOffset] in *; congruence|right; lia].
      + destruct (Z.eq_dec (ObjectID k) (2^64 - 256)) as [E1|]; [|right; lia]. destruct (Z.eq_dec (KOffset k) (2^64-1)) as [E|E]; [left; destruct k as [k1 k2 k3]; cbn [KType ObjectID KOffset] in *; congruence|right; lia].
    - intros [[E|H1] [E'|H2]]; try (rewrite <- E); try (rewrite E'); cbn [KType ObjectID KOffset]; lia.
  Qed.
  Lemma subvol_rows fuel : (length b + 1 < fuel)%nat -> range_items fuel b (Subvolumes b max64) = Ok (map row (subvols is)).
  Proof.
    intros Hfuel. unfold Subvolumes. change RootTreeObjectID with 1. change (KF2 RootItemKey FirstFreeObjectID) with subvol_first. change (KL2 RootItemKey LastFreeObjectID) with subvol_last.
    assert (Hu : is_u64 1) by (unfold is_u64; lia). assert (Ho : 1 < max64) by (unfold max64; lia). change (subvols is) with (part vin 1).
    destruct (part vin 1) as [|i0 l] eqn:EP.
    - destruct fuel as [|fuel]; [lia|]. apply range_none; [exact b_opened|exact Hu|exact Ho|exact wf_svf|exact (b_data 1 Ho Hu)|intros k; apply b_types; assumption|].
      intros k HP HT HI. change (KType subvol_first) with 132 in HT. change (ObjectID subvol_first) with 256 in HI. pose proof (part_keys vin 1 _ _ Ho Hu vin_between) as [_ KB]. rewrite EP in KB. cbn [map] in KB.
      apply (KB k). split; [exact HP|]. apply vin_between; [apply HP|]. unfold vin. lia.
    - destruct (proj2 (proj2 (proj2 HD))) as (G1 & G2 & i & Hi & Ei); [change (subvols is) with (part vin 1); rewrite EP; discriminate|]. change (subvols is) with (part vin 1) in *.
      rewrite <- EP. apply part_rows; try assumption; [exact wf_svf|reflexivity|exact wf_svl|exact vin_between|].
      assert (HS : isorted (part vin 1)) by apply isorted_filter, tree_sorted. rewrite EP in *. 
      assert (H0 : In i0 (part vin 1)) by (rewrite EP; left; reflexivity). apply filter_In in H0 as [_ H0]. unfold vin in H0. change (KType subvol_first) with 132. change (ObjectID subvol_first) with 256.
      assert (H1 : vin (i_key i) = true) by (rewrite <- EP in Hi; apply filter_In in Hi; apply Hi). unfold vin in H1.
      destruct Hi as [<-|Hi]; [lia|]. inversion HS as [|? ? _ HF]; subst. rewrite Forall_forall in HF. specialize (HF i Hi). unfold key_lt in HF. lia.
  Qed.
  (** single items *)
  Lemma find_at o k : o < max64 -> is_u64 o -> wf_Key k -> (i <- FindItem b max64 o k ;; item_data_opt i) = Ok (item_data (item_at is o k)).
  Proof.
    intros Ho Hu Hk. unfold item_at, item_data. destruct (List.find (fun i => same_keyb (i_key i) k) (tree_items is o)) as [i|] eqn:EF.
    - apply find_some in EF as [Hi E]. apply same_keyb_eq in E. subst k. destruct (tree_in is i o Hi) as [Hi' Eo].
      destruct (C17_latest_partial b o (i_key i) b_opened Hk Hu) as [(g & v & -> & HL)|[_ HN]]; [intros (E & _); lia| |destruct HN; apply b_present; try assumption; exists i; auto].
      destruct (latest_unique _ _ _ _ _ _ HL (b_latest i o Hi)) as [_ ->]. cbn [rbind item_data_opt option_map]. rewrite (proj2 (HV i Hi')). reflexivity.
    - destruct (C17_latest_partial b o k b_opened Hk Hu) as [(g & v & _ & HL)|[-> _]]; [intros (E & _); lia| |reflexivity]. exfalso.
      assert (P : present b o k) by (split; [exact Hk|exists g, v; split; apply HL]). apply b_present in P as (j & Hj & Eo & Ek); try assumption.
      destruct (tree_has is o j Hj Eo) as (i & Hi & Ei & _). pose proof (find_none _ _ EF i Hi) as E. cbn beta in E. rewrite (proj2 (same_keyb_eq _ _)) in E by congruence. discriminate.
  Qed.
  (** addresses *)
  Lemma stripes_fold : forall l cs acc, Forall2 chunk_item l cs -> (forall i, In i l -> In i is) ->
    fold_items stripe_of (map row l) acc = Ok (acc ++ map entry_of cs).
  Proof.
    induction l as [|i l IH]; intros cs' acc F2 HI; inversion F2 as [|? x ? cs2 (C1 & C2 & C3 & C4) F2']; subst; cbn [map fold_items]; [rewrite app_nil_r; reflexivity|].
    unfold row at 1. cbn [fold_items]. unfold stripe_of at 1. destruct x as [f c]. cbn [fst snd] in *.
    destruct (C06_chunk c (sl (i_data i)) C2) as [(_ & _ & _ & _ & _ & _ & _ & HN & _) HS]. rewrite HN. cbn [rbind].
    destruct (ch_stripes c) as [|st sts] eqn:Es; [destruct C4|].
    replace (zlen (st :: sts) =? 0) with false by (unfold zlen; cbn [length]; lia).
    destruct (HS C3 0%nat st) as (sub & HSub & H1 & H2 & _); [try rewrite Es; reflexivity|].
    change (Z.of_nat 0) with 0 in HSub. rewrite HSub. cbn [rbind]. rewrite H1, H2. cbn [rbind].
    rewrite (IH cs2) by (try exact F2'; intros j Hj; apply HI; right; exact Hj). rewrite <- app_assoc. cbn [app].
    pose proof (wf_of i (HI i (or_introl eq_refl))) as WT. destruct (ik_built _ _ _ WT) as (_ & _ & _ & _ & _ & B).
    rewrite B, <- C1. unfold entry_of at 2. cbn [fst snd]. unfold first_stripe. rewrite Es. reflexivity.
  Qed.
  Lemma phys_at fuel l p : (length b + 1 < fuel)%nat -> mapped cs l = Ok p -> (' (_, q) <- Physical fuel b max64 None l ;; Ok q) = Ok p.
  Proof.
    intros Hfuel HP. unfold Physical. destruct HC as [F2 HDj].
    assert (H3 : is_u64 3) by (unfold is_u64; lia). assert (H3m : 3 < max64) by (unfold max64; lia).
    rewrite (build_items fuel b max64 (map row (group is 3 228 256))).
    2:{ apply group_rows; [exact H3m|exact H3|unfold is_u64; lia|right; right; reflexivity|exact Hfuel]. }
    rewrite (stripes_fold _ cs []); [|exact F2|intros i Hi; apply filter_In in Hi as [Hi _]; apply (tree_in is i 3 Hi)]. cbn [rbind app].
    unfold mapped, chunk_of in HP. destruct (List.find _ cs) as [[f c]|] eqn:EF; [|discriminate].
    assert (HSplit : exists pre post, cs = pre ++ (f, c) :: post) by (apply find_some in EF as [Hin _]; apply in_split; exact Hin).
    apply find_some in EF as [Hin Hlog]. cbn [fst snd] in Hlog. destruct HSplit as (pre & post & Ecs).
    assert (HS : StronglySorted Z.lt (map fst cs)).
    { assert (HSg : isorted (group is 3 228 256)) by apply isorted_filter, tree_sorted.
      assert (HK : forall i, In i (group is 3 228 256) -> KType (i_key i) = 228 /\ ObjectID (i_key i) = 256) by (intros i Hi; apply filter_In in Hi as [_ Hi]; lia).
      clear -F2 HSg HK. induction F2 as [|i x l cs' C F2 IH]; cbn [map]; [constructor|]. inversion HSg as [|? ? HSg' HF]; subst. rewrite Forall_forall in HF.
      constructor; [apply IH; [exact HSg'|intros j Hj; apply HK; right; exact Hj]|]. apply Forall_forall. intros z Hz. apply in_map_iff in Hz as (y & <- & Hy).
      destruct (Forall2_in_r _ _ _ F2 y Hy) as (j & Hj & C'). specialize (HF j Hj). destruct (HK i (or_introl eq_refl)), (HK j (or_intror Hj)).
      unfold key_lt in HF. rewrite (proj1 C), (proj1 C'). lia. }
    destruct (Forall2_in_r _ _ _ F2 _ Hin) as (i & Hi & C1 & C2 & C3 & C4). cbn [fst snd] in *.
    assert (Hif : In i is) by (apply filter_In in Hi as [Hi _]; apply (tree_in is i 3 Hi)). pose proof (wf_of i Hif) as (_ & (_ & _ & Wf) & _). rewrite <- C1 in Wf.
    rewrite Ecs, map_app. cbn [map]. rewrite Physical_in_spec.
    - destruct (ch_stripes c) as [|s ss] eqn:Es; [discriminate|]. injection HP as <-. cbn [rbind]. unfold entry_of; cbn [sm_devID sm_offset sm_logical fst snd]. unfold first_stripe. rewrite Es. cbn [hd].
      f_equal. f_equal. destruct C4 as [D1 D2]. unfold u64, is_u64 in *. rewrite (Z.mod_small (_ + l)) by lia. rewrite Z.mod_small by lia. lia.
    - change (entry_of (f, c) :: map entry_of post) with (map entry_of ((f, c) :: post)). rewrite <- map_app, <- Ecs. clear -HS.
      induction cs as [|[x y] l' IH]; [constructor|]. cbn [map fst] in *. apply StronglySorted_inv in HS as [HS HF]. constructor; [apply IH; exact HS|]. rewrite Forall_forall in *.
      intros z Hz. apply in_map_iff in Hz as ([x' y'] & <- & Hin). cbn [entry_of sm_logical fst]. apply HF. apply in_map_iff. exists (x', y'); auto.
    - cbn [entry_of sm_logical fst]. lia.
    - intros z Hz. apply in_map_iff in Hz as ([x' y'] & <- & Hz). cbn [entry_of sm_logical fst]. rewrite Ecs in HDj. clear -HDj Hz Hlog.
      induction pre as [|x pre IH]; cbn [app disjoint] in HDj; [|apply IH; apply HDj]. destruct HDj as [HDj _]. specialize (HDj _ Hz). cbn [fst snd] in HDj. lia.
  Qed.
End Built.

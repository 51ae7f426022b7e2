(** Ranges as lists: what the idiom [for r, d := ix.X(); r.HasNext(); d = r.Next()]
    runs over, with the data slices.  Used by the models of the commands. *)
From Verif Require Import Go GoProofs Layout KeyFmt KeyProofs Bolt Store StoreProofs SpecStore RangeProofs PropsStore.
From Coq Require Import ZifyBool ZifyNat ZifyN Sorted.
Ltac Zify.zify_post_hook ::= Z.div_mod_to_equations.

(** a loop body that looks only at the current key and the data *)
Definition keyed {S} (f : list byte -> slice -> S -> Res (S * bool)) (r : Range) (d : slice) (s : S) : Res (S * bool) :=
  match r_key r with Some k => f k d s | None => Panic end.
(** everything that idiom runs over (a specification device; models no code of its own) *)
Definition range_items (fuel : nat) (b : bucket) (init : Res (Range * slice)) : Res (list (list byte * slice)) :=
  range_for fuel b init (keyed (fun k d acc => Ok (acc ++ [(k, d)], false))) [].
Fixpoint fold_items {S} (f : list byte -> slice -> S -> Res (S * bool)) (l : list (list byte * slice)) (s : S) : Res S :=
  match l with
  | [] => Ok s
  | (k, d) :: l => ' (s', brk) <- f k d s ;; if (brk : bool) then Ok s' else fold_items f l s'
  end.
Lemma loop_items fuel : forall b r d acc L, range_loop fuel b r d (keyed (fun k d acc => Ok (acc ++ [(k, d)], false))) acc = Ok L ->
  exists L', L = acc ++ L' /\ forall (S : Type) (f : list byte -> slice -> S -> Res (S * bool)) s,
    range_loop fuel b r d (keyed f) s = fold_items f L' s.
Proof.
  induction fuel as [|fuel IH]; intros b r d acc L H; [discriminate|]. cbn [range_loop] in *. destruct (HasNext r) eqn:HN.
  - unfold keyed at 1 in H. unfold HasNext in HN. destruct (r_key r) as [k|] eqn:EK; [|discriminate]. cbn [rbind] in H.
    destruct (Range_Next b r) as [[r' d']| |] eqn:ER; cbn [rbind] in H; try discriminate.
    destruct (IH b r' d' _ L H) as (L' & -> & HL). exists ((k, d) :: L'). split; [rewrite <- app_assoc; reflexivity|].
    intros S f s. unfold keyed at 1. rewrite EK. cbn [fold_items].
    destruct (f k d s) as [[s' brk]| |]; cbn [rbind]; [|reflexivity|reflexivity]. destruct brk; [reflexivity|]. cbn [rbind]. apply HL.
  - injection H as <-. exists []. split; [rewrite app_nil_r; reflexivity|reflexivity].
Qed.
Lemma Forall2_len {A B} (P : A -> B -> Prop) l m : Forall2 P l m -> length l = length m.
Proof. induction 1; cbn [length]; congruence. Qed.
Lemma stored_inj b o k g v v' : wf_bucket b -> stored b o k g v -> stored b o k g v' -> v = v'.
Proof. intros W H H'. apply get_In in H; [|exact W]. apply get_In in H'; [|exact W]. congruence. Qed.
(** iterating = folding over the list of items *)
Lemma range_for_items fuel b init L : range_items fuel b init = Ok L ->
  forall (S : Type) (f : list byte -> slice -> S -> Res (S * bool)) s, range_for fuel b init (keyed f) s = fold_items f L s.
Proof.
  unfold range_items, range_for. destruct init as [[r d]| |]; cbn [rbind]; try discriminate. intros H S f s.
  destruct (loop_items fuel b r d [] L H) as (L' & E & HL). cbn [app] in E. subst L'. apply HL.
Qed.
Lemma collect_items fuel b init L : range_items fuel b init = Ok L -> range_collect fuel b init = Ok (map (fun e => (fst e, sbytes (snd e))) L).
Proof.
  intros H. unfold range_collect. change collect_body with (keyed (fun k d acc => Ok (acc ++ [(k, sbytes d)], false))).
  rewrite (range_for_items fuel b init L H).
  assert (G : forall L acc, fold_items (fun k d acc => Ok (acc ++ [(k, sbytes d)], false)) L acc = Ok (acc ++ map (fun e => (fst e, sbytes (snd e))) L)).
  { induction L0 as [|[k d] L0 IH]; intros acc; cbn [fold_items map]; [rewrite app_nil_r; reflexivity|]. cbn [rbind]. rewrite IH, <- app_assoc. reflexivity. }
  rewrite G. reflexivity.
Qed.
(** under (owner, type, object id) with one generation: the items in offset order *)
Lemma range_all_items b gen o t id g offs fuel :
  opened b -> is_u64 o -> o < max64 -> is_u8 t -> is_u64 id -> t < 255 -> is_u64 gen ->
  data_ok b o -> no_max_gen b o -> no_wrap b o (mkKey id t max64) ->
  (gen = max64 \/ ~ present b o (mkKey id t max64)) ->
  offsets_of b o t id offs -> (length b + 1 < fuel)%nat ->
  (forall f g' v, is_u64 f -> is_u64 g' -> stored b o (mkKey id t f) g' v -> g' = g) ->
  exists L, range_items fuel b (RangeAll b gen o t id) = Ok L /\
    Forall2 (fun f e => exists v, fst e = newIndexKey o (mkKey id t f) g /\ stored b o (mkKey id t f) g v /\ valueData v = Ok (snd e)) offs L.
Proof.
  intros Op Ho Hom Ht Hi Htid Hgen ND NM NW Hl HO Hfuel HU. pose proof Op as [W _].
  pose proof (offs_keys b o t id offs Ht Hi HO) as KB.
  assert (Eu : u8 t = t) by (unfold u8, is_u8 in *; apply Z.mod_small; lia).
  assert (EF : KF2 t id = mkKey id t 0) by (unfold KF2; rewrite Eu; reflexivity).
  assert (EL : KL2 t id = mkKey id t max64) by (unfold KL2; rewrite Eu; reflexivity).
  assert (WF : wf_Key (mkKey id t 0)) by (unfold wf_Key; cbn; split; [exact Hi|split; [exact Ht|unfold is_u64; lia]]).
  assert (WL : wf_Key (mkKey id t max64)) by (unfold wf_Key; cbn; split; [exact Hi|split; [exact Ht|exact max64_u64]]).
  assert (Hf : forall f, In f offs -> is_u64 f /\ wf_Key (mkKey id t f) /\ exists v, stored b o (mkKey id t f) g v).
  { intros f Hf. apply HO in Hf as (Hwf & g2 & v2 & Hg2 & Hst2). assert (is_u64 f) by apply Hwf. split; [assumption|]. split; [exact Hwf|].
    exists v2. rewrite (HU f g2 v2) in Hst2 by assumption. exact Hst2. }
  unfold range_items, RangeAll. rewrite EF, EL.
  pose proof (range_exact b gen o (mkKey id t 0) (mkKey id t max64) fuel (map (fun f => mkKey id t f) offs)
     (keyed (fun k d acc => Ok (acc ++ [(k, d)], false))) [] Op Ho Hom WF WL Hgen ND NM NW Hl KB Hfuel) as H.
  destruct offs as [|f0 offs].
  { cbn [map] in H. exists []. split; [|constructor]. apply H. unfold key_lt, KL0; cbn [KType ObjectID KOffset]. unfold is_u8, is_u64, LastFreeObjectID, max64 in *.
    lia. }
  cbn [map] in H. cbv beta iota in H. cbn [KType ObjectID] in H. rewrite !Z.eqb_refl in H. cbn [andb] in H.
  destruct H as (g' & v & (Hst & Hg' & _) & HR).
  assert (g' = g). { destruct (Hf f0 (or_introl eq_refl)) as (A & _). exact (HU f0 g' v A Hg' Hst). }
  subst g'. rewrite HR. clear HR HO Hfuel KB Hst.
  assert (G : forall l acc, (forall f, In f l -> is_u64 f /\ wf_Key (mkKey id t f) /\ exists v, stored b o (mkKey id t f) g v) ->
    exists L, fold_range (keyed (fun k d acc => Ok (acc ++ [(k, d)], false))) (newIndexKey o (mkKey id t max64) gen) (yields b o g (map (fun f => mkKey id t f) l)) acc = Ok (acc ++ L) /\
    Forall2 (fun f e => exists v, fst e = newIndexKey o (mkKey id t f) g /\ stored b o (mkKey id t f) g v /\ valueData v = Ok (snd e)) l L).
  { induction l as [|f l IH]; intros acc HA; cbn [map yields fold_range].
    - exists []. split; [rewrite app_nil_r; reflexivity|constructor].
    - destruct (HA f (or_introl eq_refl)) as (Hfu & Hwf & w & Hst). pose proof Hst as G. apply get_In in G; [|exact W]. rewrite G. cbn [fold_range].
      destruct (ND _ _ _ Hwf Hg' Hst) as [d Hd]. rewrite Hd. cbn [rbind]. unfold keyed at 1. cbn [r_key rbind].
      destruct (IH (acc ++ [(newIndexKey o (mkKey id t f) g, d)])) as (L & E & F); [intros f' Hf'; apply HA; right; exact Hf'|].
      exists ((newIndexKey o (mkKey id t f) g, d) :: L). split; [rewrite E, <- app_assoc; reflexivity|]. constructor; [|exact F]. exists w. auto. }
  exact (G (f0 :: offs) [] Hf).
Qed.
Lemma key_le_bounds id t k : key_le (mkKey id t 0) k -> key_le k (mkKey id t max64) -> wf_Key k -> k = mkKey id t (KOffset k).
Proof.
  intros H1 H2 Hk. assert (H : KType k = t /\ ObjectID k = id).
  { unfold key_le, key_lt in *. destruct H1 as [<-|H1]; [cbn [KType ObjectID]; auto|]. destruct H2 as [->|H2]; [cbn [KType ObjectID]; auto|].
    cbn [KType ObjectID KOffset] in *. lia. }
  destruct H as [<- <-]. destruct k; reflexivity.
Qed.
Lemma offsets_exist b o t id : wf_bucket b -> is_u64 o -> is_u8 t -> is_u64 id ->
  exists offs, offsets_of b o t id offs /\ (length offs <= length b)%nat.
Proof.
  intros W Ho Ht Hi.
  assert (WF : wf_Key (mkKey id t 0)) by (unfold wf_Key; cbn; split; [exact Hi|split; [exact Ht|unfold is_u64; lia]]).
  assert (WL : wf_Key (mkKey id t max64)) by (unfold wf_Key; cbn; split; [exact Hi|split; [exact Ht|exact max64_u64]]).
  destruct (keys_between_exists b o (mkKey id t 0) (mkKey id t max64) W Ho WF WL) as (ks & [Hs Hin] & HL).
  assert (HK : forall k, In k ks -> k = mkKey id t (KOffset k)).
  { intros k Hk. apply Hin in Hk as ([Hwf _] & A & B). apply key_le_bounds; assumption. }
  exists (map KOffset ks). split; [split|rewrite map_length; exact HL].
  - clear -Hs HK. induction Hs as [|k ks Hs IH F]; cbn [map]; constructor; [apply IH; intros; apply HK; right; assumption|].
    rewrite Forall_forall in *. intros f Hf. apply in_map_iff in Hf as (k' & <- & Hk'). specialize (F k' Hk').
    pose proof (HK k (or_introl eq_refl)) as E. pose proof (HK k' (or_intror Hk')) as E'. rewrite E, E' in F. unfold key_lt in F. cbn [KType ObjectID KOffset] in F. lia.
  - intros f. split.
    + intros Hf. apply in_map_iff in Hf as (k & <- & Hk). rewrite <- (HK k Hk). apply Hin. exact Hk.
    + intros Hp. change f with (KOffset (mkKey id t f)). apply in_map. apply Hin. split; [exact Hp|]. destruct Hp as [(_ & _ & Hf) _]. cbn [KOffset] in Hf.
      unfold key_le, key_lt. cbn [KType ObjectID KOffset]. unfold is_u64, max64 in *. split.
      * destruct (Z.eq_dec f 0) as [->|]; [left; reflexivity|right; lia].
      * destruct (Z.eq_dec f (2^64-1)) as [->|]; [left; reflexivity|right; lia].
Qed.
(** the items of a range over (owner, type, object id), all of one generation *)
Lemma range_all_records b gen o t id g fuel :
  opened b -> is_u64 o -> o < max64 -> is_u8 t -> is_u64 id -> t < 255 -> is_u64 gen ->
  data_ok b o -> no_max_gen b o -> no_wrap b o (mkKey id t max64) ->
  (gen = max64 \/ ~ present b o (mkKey id t max64)) ->
  (length b + 1 < fuel)%nat ->
  (forall f g' v, is_u64 f -> is_u64 g' -> stored b o (mkKey id t f) g' v -> g' = g) ->
  exists offs L, offsets_of b o t id offs /\ (length L <= length b)%nat /\ range_items fuel b (RangeAll b gen o t id) = Ok L /\
    Forall2 (fun f e => exists v, fst e = newIndexKey o (mkKey id t f) g /\ is_u64 f /\ is_u64 g /\ stored b o (mkKey id t f) g v /\ valueData v = Ok (snd e)) offs L.
Proof.
  intros Op Ho Hom Ht Hi Ht5 Hgen ND NM NW Hl Hfuel HU.
  destruct (offsets_exist b o t id (proj1 Op) Ho Ht Hi) as (offs & HO & HL).
  destruct (range_all_items b gen o t id g offs fuel Op Ho Hom Ht Hi Ht5 Hgen ND NM NW Hl HO Hfuel HU) as (L & EL & F).
  exists offs, L. split; [exact HO|]. split; [rewrite <- (Forall2_len _ _ _ F); exact HL|]. split; [exact EL|].
  assert (P : forall f, In f offs -> is_u64 f /\ is_u64 g).
  { intros f Hf. apply HO in Hf as (Hwf & g' & v & Hg' & Hst). assert (Hfu : is_u64 f) by apply Hwf. split; [exact Hfu|].
    rewrite <- (HU f g' v Hfu Hg' Hst). exact Hg'. }
  clear -F P. induction F as [|f e offs L (v & A & B & C) F IH]; constructor.
  - destruct (P f (or_introl eq_refl)) as [P1 P2]. exists v. auto.
  - apply IH. intros f' Hf'. apply P. right. exact Hf'.
Qed.

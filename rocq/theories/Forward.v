(** Indexes over which iteration moves forward: all queries end. *)
From Verif Require Import Go GoProofs Layout KeyFmt KeyProofs Bolt Store StoreProofs PropsRange Recover PropsRecoverDfs.
From Coq Require Import ZifyBool ZifyNat Lia List.

(** Next moves on: from an item of the index (any entry but the record of the index itself, the greatest) it yields one with a greater key, or ends *)
Definition advances (b : bucket) : Prop :=
  forall r r' d k k', r_key r = Some k -> In k (map fst b) -> bytes_ltb k metadataKey = true -> Range_Next b r = Ok (r', d) -> r_key r' = Some k' -> bytes_ltb k k' = true.
(** to check it for a given index *)
Definition advancesb (b : bucket) : bool :=
  forallb (fun e => if bytes_ltb (fst e) metadataKey then match findNext b (fst e) None with Some (k', _) => bytes_ltb (fst e) k' | None => true end else true) b.
Lemma advancesb_ok b : advancesb b = true -> advances b.
Proof.
  intros H r r' d k k' HK Hin HM HN HK'. unfold advancesb in H. rewrite forallb_forall in H. apply in_map_iff in Hin as (e & <- & He). specialize (H e He). rewrite HM in H.
  unfold Range_Next in HN. rewrite HK in HN. destruct (findNext b (fst e) None) as [[k2 v2]|].
  - destruct (valueData v2) as [d2| |]; cbn [rbind] in HN; try discriminate. assert (r' = mkRange (Some k2) (r_end r) v2) by congruence. subst r'. cbn [r_key] in HK'. congruence.
  - assert (r' = mkRange None (r_end r) []) by congruence. subst r'. cbn in HK'. discriminate.
Qed.
Definition above (b : bucket) (k : list byte) : nat := length (filter (fun e => bytes_ltb k (fst e)) b).
Lemma filter_mono {A} (f g : A -> bool) l : (forall x, In x l -> f x = true -> g x = true) -> (length (filter f l) <= length (filter g l))%nat.
Proof. induction l as [|x l IH]; intros H; cbn [filter]; [lia|]. pose proof (H x (or_introl eq_refl)) as Hx. specialize (IH (fun y Hy => H y (or_intror Hy))). destruct (f x); [rewrite (Hx eq_refl); cbn [length]; lia|]. destruct (g x); cbn [length]; lia. Qed.
Lemma filter_less {A} (f g : A -> bool) l y : (forall x, In x l -> f x = true -> g x = true) -> In y l -> f y = false -> g y = true -> (length (filter f l) < length (filter g l))%nat.
Proof.
  induction l as [|x l IH]; intros H Hy F G; [destruct Hy|]. cbn [filter]. pose proof (H x (or_introl eq_refl)) as Hx. pose proof (fun z Hz => H z (or_intror Hz)) as H'.
  destruct Hy as [->|Hy].
  - rewrite F, G. cbn [length]. pose proof (filter_mono f g l H'). lia.
  - specialize (IH H' Hy F G). destruct (f x); [rewrite (Hx eq_refl); cbn [length]; lia|]. destruct (g x); cbn [length]; lia.
Qed.
Lemma ltb_cmp a b : bytes_ltb a b = true <-> bytes_cmp a b = Lt.
Proof. unfold bytes_ltb. destruct (bytes_cmp a b); split; congruence. Qed.
Lemma ltb_self a : bytes_ltb a a = false.
Proof. unfold bytes_ltb. rewrite (proj2 (bytes_cmp_eq a a) eq_refl). reflexivity. Qed.
Lemma above_less b k k' : In k' (map fst b) -> bytes_ltb k k' = true -> (above b k' < above b k)%nat.
Proof.
  intros Hin HL. apply in_map_iff in Hin as (e & <- & He). unfold above. apply (filter_less _ _ b e); [|exact He|apply ltb_self|exact HL].
  intros x _ Hx. apply ltb_cmp. apply ltb_cmp in HL, Hx. exact (bytes_cmp_lt_trans _ _ _ HL Hx).
Qed.
Lemma above_len b k : In k (map fst b) -> (above b k < length b)%nat.
Proof. intros Hin. apply in_map_iff in Hin as (e & <- & He). unfold above. assert (HT : filter (fun _ => true) b = b) by (clear; induction b as [|x b IH]; cbn; congruence). rewrite <- HT at 2. apply (filter_less _ _ b e); [reflexivity|exact He|apply ltb_self|reflexivity]. Qed.
Lemma value_nt v : valueData v <> Timeout.
Proof. unfold valueData, Item_Data, go_from. res_nt. Qed.
Lemma below_ff n : forall a x r r', length a = n -> bz x < 255 -> bytes_cmp (a ++ x :: r) (repeat xff n ++ xff :: r') = Lt.
Proof.
  induction n as [|n IH]; intros a x r r' HL HX.
  - destruct a; [|discriminate]. cbn [app repeat bytes_cmp]. change (bz xff) with 255. apply Z.compare_lt_iff in HX. rewrite HX. reflexivity.
  - destruct a as [|y a]; [discriminate|]. cbn [app repeat bytes_cmp]. change (bz xff) with 255. destruct (bz y ?= 255) eqn:E; [apply IH; [cbn in HL; lia|exact HX]|reflexivity|]. exfalso. apply Z.compare_gt_iff in E. pose proof (bz_range y). lia.
Qed.
Lemma end_below o l gen : KType l < 255 -> 0 <= KType l -> bytes_ltb (newIndexKey o l gen) metadataKey = true.
Proof.
  intros H1 H2. apply ltb_cmp. unfold metadataKey. change (newIndexKey max64 KL0 max64) with (repeat xff 8 ++ xff :: be_encode 8 (ObjectID KL0) ++ be_encode 8 (KOffset KL0) ++ be_encode 8 max64).
  unfold newIndexKey. cbn [app]. apply below_ff; [apply be_encode_length|]. rewrite bz_zb by lia. lia.
Qed.
Section Loop.
  Variable b : bucket.
  Hypothesis HA : advances b.
  Lemma before_record r k : r_key r = Some k -> HasNext r = true -> bytes_ltb (r_end r) metadataKey = true -> bytes_ltb k metadataKey = true.
  Proof.
    unfold HasNext. intros -> HL HE. apply ltb_cmp. apply ltb_cmp in HE. unfold bytes_leb in HL. destruct (bytes_cmp k (r_end r)) eqn:EC; [|exact (bytes_cmp_lt_trans _ _ _ EC HE)|discriminate]. apply bytes_cmp_eq in EC. rewrite EC. exact HE.
  Qed.
  Lemma next_end r r' d : Range_Next b r = Ok (r', d) -> r_end r' = r_end r.
  Proof.
    unfold Range_Next. destruct (r_key r) as [k|]; [|discriminate]. destruct (findNext b k None) as [[k2 v2]|].
    - destruct (valueData v2) as [d2| |]; cbn [rbind]; try discriminate. intros H. assert (r' = mkRange (Some k2) (r_end r) v2) by congruence. subst r'. reflexivity.
    - intros H. assert (r' = mkRange None (r_end r) []) by congruence. subst r'. reflexivity.
  Qed.
  Lemma next_key r r' d k : r_key r = Some k -> In k (map fst b) -> HasNext r = true -> bytes_ltb (r_end r) metadataKey = true -> Range_Next b r = Ok (r', d) ->
    match r_key r' with Some k' => In k' (map fst b) /\ bytes_ltb k k' = true | None => True end.
  Proof.
    intros HK Hin HH HE HN. destruct (r_key r') as [k'|] eqn:E; [|exact Logic.I]. split; [|exact (HA r r' d k k' HK Hin (before_record r k HK HH HE) HN E)].
    unfold Range_Next in HN. rewrite HK in HN. destruct (findNext b k None) as [[k2 v2]|] eqn:EF.
    - destruct (valueData v2) as [d2| |]; cbn [rbind] in HN; try discriminate. assert (r' = mkRange (Some k2) (r_end r) v2) by congruence. subst r'. cbn [r_key] in E. assert (k2 = k') by congruence. subst k2.
      exact (in_map fst _ _ (findNext_in _ _ _ _ EF)).
    - assert (r' = mkRange None (r_end r) []) by congruence. subst r'. cbn in E. discriminate.
  Qed.
  Lemma next_answers r : Range_Next b r <> Timeout.
  Proof. unfold Range_Next. destruct (r_key r) as [k|]; [|congruence]. destruct (findNext b k None) as [[k2 v2]|]; [|discriminate]. apply rb_nt; [apply value_nt|discriminate]. Qed.
  (** the loop over a range that starts at an entry of the index *)
  Lemma stream_ends : forall fuel r d, match r_key r with Some k => In k (map fst b) /\ (above b k < fuel)%nat | None => (0 < fuel)%nat end -> (0 < fuel)%nat -> bytes_ltb (r_end r) metadataKey = true -> st_end (stream_loop (S fuel) b r d) <> Timeout.
  Proof.
    induction fuel as [|fuel IH]; intros r d HR H0 HE; [lia|]. cbn [stream_loop]. destruct (HasNext r) eqn:EHN; [|discriminate]. destruct (r_key r) as [k|] eqn:EK; [|discriminate]. destruct HR as [Hin Hlt].
    destruct (Range_Next b r) as [[r' d']| |] eqn:EN; [|discriminate|exfalso; exact (next_answers r EN)]. cbn [st_end]. pose proof (next_key r r' d' k EK Hin EHN HE EN) as HK. pose proof (next_end r r' d' EN) as HE'.
    destruct fuel as [|fuel].
    - destruct (r_key r') as [k'|] eqn:EK'; [exfalso; destruct HK as [Hi HL]; pose proof (above_less b k k' Hi HL); lia|]. cbn [stream_loop]. unfold HasNext. rewrite EK'. discriminate.
    - apply IH; [|lia|rewrite HE'; exact HE]. destruct (r_key r') as [k'|]; [|lia]. destruct HK as [Hi HL]. split; [exact Hi|]. pose proof (above_less b k k' Hi HL). lia.
  Qed.
  Lemma from_key gen o f l r d : mkRangeFrom b gen o f l = Ok (r, d) -> match r_key r with Some k => In k (map fst b) | None => True end.
  Proof.
    unfold mkRangeFrom. destruct (Store.find b o _ gen) as [[[k v]|]| |] eqn:EF; cbn [rbind]; try discriminate.
    - destruct (valueData v) as [d0| |]; cbn [rbind]; try discriminate. intros H. assert (r = mkRange (Some k) (newIndexKey o l gen) v) by congruence. subst r. cbn [r_key]. exact (in_map fst _ _ (find_in _ _ _ _ _ EF)).
    - intros H. assert (r = mkRange None (newIndexKey o l gen) []) by congruence. subst r. exact Logic.I.
  Qed.
  Lemma from_end gen o f l r d : mkRangeFrom b gen o f l = Ok (r, d) -> r_end r = newIndexKey o l gen.
  Proof.
    unfold mkRangeFrom. destruct (Store.find b o _ gen) as [[[k v]|]| |] eqn:EF; cbn [rbind]; try discriminate.
    - destruct (valueData v) as [d0| |]; cbn [rbind]; try discriminate. intros H. assert (r = mkRange (Some k) (newIndexKey o l gen) v) by congruence. subst r. reflexivity.
    - intros H. assert (r = mkRange None (newIndexKey o l gen) []) by congruence. subst r. reflexivity.
  Qed.
  Lemma find_nt o k g : Store.find b o k g <> Timeout.
  Proof. unfold Store.find. destruct (cur_entry _) as [[fk fv]|]; [|discriminate]. destruct (bytes_leb _ _); [discriminate|]. destruct (prev_entry _) as [[pk pv]|]; [|discriminate]. destruct (_ && _); discriminate. Qed.
  Lemma from_nt gen o f l : mkRangeFrom b gen o f l <> Timeout.
  Proof. unfold mkRangeFrom. apply rb_nt; [apply find_nt|]. intros [[k v]|]; [|discriminate]. apply rb_nt; [apply value_nt|discriminate]. Qed.
  Lemma stream_of_ends fuel gen o f l : KType l < 255 -> 0 <= KType l -> (1 + length b < fuel)%nat -> st_end (stream_of fuel b (mkRangeFrom b gen o f l)) <> Timeout.
  Proof.
    intros HT1 HT2 HF. unfold stream_of. pose proof (from_nt gen o f l) as HN. destruct (mkRangeFrom b gen o f l) as [[r d]| |] eqn:EM; [|discriminate|congruence].
    destruct fuel as [|fuel]; [lia|]. apply stream_ends; [|lia|rewrite (from_end _ _ _ _ _ _ EM); exact (end_below o l gen HT1 HT2)]. pose proof (from_key _ _ _ _ _ _ EM) as HK. destruct (r_key r) as [k|]; [|lia]. split; [exact HK|]. exact (Nat.lt_trans _ _ _ (above_len b k HK) (proj2 (Nat.succ_lt_mono _ _) HF)).
  Qed.
  (** any loop over a range *)
  Lemma range_ends {S} (body : Range -> slice -> S -> Res (S * bool)) : (forall r d s, body r d s <> Timeout) ->
    forall fuel r d s, match r_key r with Some k => In k (map fst b) /\ (above b k < fuel)%nat | None => (0 < fuel)%nat end -> (0 < fuel)%nat -> bytes_ltb (r_end r) metadataKey = true -> range_loop (Datatypes.S fuel) b r d body s <> Timeout.
  Proof.
    intros HB. induction fuel as [|fuel IH]; intros r d s HR H0 HE; [lia|]. cbn [range_loop]. destruct (HasNext r) eqn:EHN; [|discriminate]. apply rb_nt; [apply HB|]. intros [s' brk]. destruct brk; [discriminate|].
    destruct (r_key r) as [k|] eqn:EK; [|unfold HasNext in EHN; rewrite EK in EHN; discriminate]. destruct HR as [Hin Hlt].
    destruct (Range_Next b r) as [[r' d']| |] eqn:EN; [|discriminate|exfalso; exact (next_answers r EN)]. cbn [rbind]. pose proof (next_key r r' d' k EK Hin EHN HE EN) as HK. pose proof (next_end r r' d' EN) as HE'.
    destruct fuel as [|fuel].
    - destruct (r_key r') as [k'|] eqn:EK'; [exfalso; destruct HK as [Hi HL]; pose proof (above_less b k k' Hi HL); lia|]. cbn [range_loop]. unfold HasNext. rewrite EK'. discriminate.
    - apply IH; [|lia|rewrite HE'; exact HE]. destruct (r_key r') as [k'|]; [|lia]. destruct HK as [Hi HL]. split; [exact Hi|]. pose proof (above_less b k k' Hi HL). lia.
  Qed.
  Lemma range_for_ends {S} (body : Range -> slice -> S -> Res (S * bool)) fuel gen o f l s : (forall r d s, body r d s <> Timeout) -> KType l < 255 -> 0 <= KType l -> (1 + length b < fuel)%nat ->
    range_for fuel b (mkRangeFrom b gen o f l) body s <> Timeout.
  Proof.
    intros HB HT1 HT2 HF. unfold range_for. pose proof (from_nt gen o f l) as HN. destruct (mkRangeFrom b gen o f l) as [[r d]| |] eqn:EM; cbn [rbind]; [|discriminate|congruence].
    destruct fuel as [|fuel]; [lia|]. apply range_ends; [exact HB| |lia|rewrite (from_end _ _ _ _ _ _ EM); exact (end_below o l gen HT1 HT2)]. pose proof (from_key _ _ _ _ _ _ EM) as HK. destruct (r_key r) as [k|]; [|lia]. split; [exact HK|]. exact (Nat.lt_trans _ _ _ (above_len b k HK) (proj2 (Nat.succ_lt_mono _ _) HF)).
  Qed.
  Lemma search_nt f : (forall i, f i <> Timeout) -> forall fuel i j, (Z.to_nat (j - i) < fuel)%nat -> search_loop fuel i j f <> Timeout.
  Proof.
    intros Hf. induction fuel as [|fuel IH]; intros i j HF; [lia|]. cbn [search_loop]. destruct (i <? j) eqn:E; [|discriminate]. pose proof (Hf ((i + j) / 2)) as Hh.
    assert (i <= (i + j) / 2 < j) by (clear - E; pose proof (Z.div_mod (i + j) 2 ltac:(lia)); pose proof (Z.mod_pos_bound (i + j) 2 ltac:(lia)); lia).
    destruct (f ((i + j) / 2)) as [p| |]; cbn [rbind]; [|discriminate|congruence]. destruct p; apply IH; lia.
  Qed.
  Lemma sm_nt m i : sm_index m i <> Timeout.
  Proof. unfold sm_index. destruct (_ && _); [|discriminate]. destruct (nth_error _ _); discriminate. Qed.
  Lemma physical_nt m l : Physical_in m l <> Timeout.
  Proof.
    unfold Physical_in. apply rb_nt; [unfold sort_Search; apply search_nt; [intros i; apply rb_nt; [apply sm_nt|discriminate]|lia]|]. intros i. apply rb_nt.
    - destruct (i =? zlen m); [discriminate|]. destruct (0 <? i); [apply rb_nt; [apply sm_nt|discriminate]|discriminate].
    - intros adj. apply rb_nt; [apply sm_nt|discriminate].
  Qed.
  Lemma stripe_nt r d s : stripe_body r d s <> Timeout.
  Proof.
    unfold stripe_body. apply rb_nt; [unfold Chunk_NumStripes; apply at16_nt|]. intros n. destruct (n =? 0); [discriminate|]. apply rb_nt; [unfold Chunk_Stripe, go_from; res_nt|]. intros x. destruct (r_key r); [|discriminate].
    apply rb_nt; [unfold Stripe_DevID; apply at64_nt|]. intros y. apply rb_nt; [unfold Stripe_Offset; apply at64_nt|discriminate].
  Qed.
  (** everything recover asks the index is answered *)
  Lemma advances_answers fuel gen : (1 + length b < fuel)%nat -> answers (ix_queries fuel b gen).
  Proof.
    intros HF. unfold answers, ix_queries. cbn [q_dirItems q_inode q_extents q_extent0 q_physical q_subvolumes].
    split; [intros o d; apply stream_of_ends; [reflexivity|discriminate|exact HF]|]. split; [intros o d; apply stream_of_ends; [reflexivity|discriminate|exact HF]|]. split; [apply stream_of_ends; [reflexivity|discriminate|exact HF]|].
    assert (HI : forall i, item_data_opt i <> Timeout) by (intros [v|]; [apply rb_nt; [apply value_nt|discriminate]|discriminate]).
    assert (HFI : forall o k, FindItem b gen o k <> Timeout) by (intros o k; apply rb_nt; [apply find_nt|discriminate]).
    split; [intros o i; apply rb_nt; [apply HFI|apply HI]|]. split; [intros o i; apply rb_nt; [apply HFI|apply HI]|].
    intros l. apply rb_nt; [|intros [m p]; discriminate]. unfold Physical. apply rb_nt; [unfold build_stripeMap; apply range_for_ends; [apply stripe_nt|reflexivity|discriminate|exact HF]|]. intros m. apply rb_nt; [apply physical_nt|discriminate].
  Qed.
End Loop.

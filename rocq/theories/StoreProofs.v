(** Proofs about Bolt.v and the lookups of Store.v. *)
From Verif Require Import Go GoProofs Layout LayoutProofs KeyFmt KeyProofs Bolt Store.
From Coq Require Import ZifyBool ZifyNat ZifyN.
Ltac Zify.zify_post_hook ::= Z.div_mod_to_equations.

(** ** buckets as sorted lists of numbers *)
Definition wf_bucket (b : bucket) : Prop := sorted b /\ Forall (fun e => length (fst e) = 33%nat) b.
Definition en (e : entry) : Z := be_decode (fst e).

Lemma wf_cons e b : wf_bucket (e :: b) -> wf_bucket b.
Proof. intros [[_ H] F]. inversion F; subst. split; assumption. Qed.
Lemma wf_len b e : wf_bucket b -> In e b -> length (fst e) = 33%nat.
Proof. intros [_ F] H. rewrite Forall_forall in F. exact (F e H). Qed.
Lemma sorted_lt e b : wf_bucket (e :: b) -> forall x, In x b -> en e < en x.
Proof.
  revert e; induction b as [|y b IH]; intros e W x Hx; [destruct Hx|].
  assert (L1 : length (fst e) = 33%nat) by (apply (wf_len _ _ W); left; reflexivity).
  assert (L2 : length (fst y) = 33%nat) by (apply (wf_len _ _ W); right; left; reflexivity).
  assert (Hlt : en e < en y).
  { destruct W as [[Hk _] _]. unfold klt in Hk. rewrite cmp33 in Hk by assumption. exact Hk. }
  destruct Hx as [<-|Hx]; [exact Hlt|].
  pose proof (IH y (wf_cons _ _ W) x Hx). lia.
Qed.
Lemma wf_app_inv a b : wf_bucket (a ++ b) -> wf_bucket a /\ wf_bucket b /\ forall x y, In x a -> In y b -> en x < en y.
Proof.
  induction a as [|e a IH]; intros W.
  - repeat split; try exact I; try apply W. + constructor. + intros x y [].
  - cbn [app] in W. destruct (IH (wf_cons _ _ W)) as (Wa & Wb & Hab). split; [|split].
    + destruct W as [[Hs _] F]. cbn [app] in *. split.
      * cbn [sorted]. split; [|apply Wa]. destruct a as [|y a]; [exact I|exact Hs].
      * inversion F as [|? ? L1 L2]; subst. constructor; [exact L1|]. apply Forall_app in L2. apply L2.
    + exact Wb.
    + intros x y [<-|Hx] Hy; [|apply Hab; assumption].
      apply (sorted_lt _ _ W). apply in_or_app. right; exact Hy.
Qed.
Lemma wf_app a b : wf_bucket a -> wf_bucket b -> (forall x y, In x a -> In y b -> en x < en y) -> wf_bucket (a ++ b).
Proof.
  induction a as [|e a IH]; intros Wa Wb H; [exact Wb|].
  assert (W : wf_bucket (a ++ b)) by (apply IH; [exact (wf_cons _ _ Wa)|exact Wb|intros x y Hx Hy; apply H; [right; exact Hx|exact Hy]]).
  cbn [app]. split.
  - cbn [sorted]. split; [|apply W]. destruct (a ++ b) as [|y r] eqn:E; [exact I|].
    assert (L1 : length (fst e) = 33%nat) by (apply (wf_len _ _ Wa); left; reflexivity).
    assert (Hy : In y (a ++ b)) by (rewrite E; left; reflexivity).
    assert (L2 : length (fst y) = 33%nat) by (apply (wf_len (y :: r) y W); left; reflexivity).
    unfold klt. rewrite cmp33 by assumption. apply Z.compare_lt_iff.
    apply in_app_or in Hy as [Hy|Hy]; [exact (sorted_lt _ _ Wa y Hy) | exact (H e y (or_introl eq_refl) Hy)].
  - constructor; [apply (wf_len _ _ Wa); left; reflexivity|apply W].
Qed.
Lemma en_inj b x y : wf_bucket b -> In x b -> In y b -> en x = en y -> x = y.
Proof.
  induction b as [|e b IH]; intros W Hx Hy E; [destruct Hx|].
  destruct Hx as [<-|Hx], Hy as [<-|Hy]; [reflexivity|..].
  - pose proof (sorted_lt _ _ W y Hy). lia.
  - pose proof (sorted_lt _ _ W x Hx). lia.
  - exact (IH (wf_cons _ _ W) Hx Hy E).
Qed.
Lemma key_unique b k v v' : wf_bucket b -> In (k, v) b -> In (k, v') b -> v = v'.
Proof. intros W H H'. assert (E : (k, v) = (k, v')) by (apply (en_inj b); auto). congruence. Qed.

(** ** seek *)
Lemma seek_from_spec before b k :
  let '(x, y) := seek_from before b k in
  exists mid, x = rev mid ++ before /\ b = mid ++ y /\ Forall (fun e => bytes_ltb (fst e) k = true) mid /\
    match y with [] => True | e :: _ => bytes_ltb (fst e) k = false end.
Proof.
  revert before; induction b as [|e b IH]; intros before; cbn [seek_from].
  - exists []. repeat split; constructor.
  - destruct (bytes_ltb (fst e) k) eqn:E.
    + specialize (IH (e :: before)). destruct (seek_from (e :: before) b k) as [x y].
      destruct IH as (mid & H1 & H2 & H3 & H4). exists (e :: mid). repeat split.
      * cbn [rev]. rewrite <- app_assoc. exact H1.
      * cbn. congruence.
      * constructor; assumption.
      * exact H4.
    + exists []. repeat split; [constructor|exact E].
Qed.
(** for a search key of 33 bytes *)
Lemma ltb33 a k : length a = 33%nat -> length k = 33%nat -> bytes_ltb a k = (be_decode a <? be_decode k).
Proof.
  intros Ha Hk. unfold bytes_ltb. rewrite cmp33 by assumption.
  unfold Z.ltb. destruct (be_decode a ?= be_decode k); reflexivity.
Qed.
Lemma leb33 a k : length a = 33%nat -> length k = 33%nat -> bytes_leb a k = (be_decode a <=? be_decode k).
Proof.
  intros Ha Hk. unfold bytes_leb. rewrite cmp33 by assumption.
  unfold Z.leb. destruct (be_decode a ?= be_decode k); reflexivity.
Qed.
Lemma eqb33 a k : length a = length k -> bytes_eqb a k = (be_decode a =? be_decode k).
Proof.
  intros H. unfold bytes_eqb. rewrite bytes_cmp_be by assumption.
  rewrite Z.eqb_compare. destruct (be_decode a ?= be_decode k); reflexivity.
Qed.
Lemma seek_spec b k : wf_bucket b -> length k = 33%nat ->
  exists lo hi, b = lo ++ hi /\ seek b k = (rev lo, hi) /\
    (forall e, In e lo -> en e < be_decode k) /\ (forall e, In e hi -> be_decode k <= en e).
Proof.
  intros W Hk. pose proof (seek_from_spec [] b k) as H. unfold seek. destruct (seek_from [] b k) as [x y].
  destruct H as (lo & -> & -> & H3 & H4). rewrite app_nil_r.
  destruct (wf_app_inv _ _ W) as (Wl & Wh & _).
  exists lo, y. repeat split.
  - intros e He. rewrite Forall_forall in H3. specialize (H3 e He).
    rewrite ltb33 in H3 by (try assumption; apply (wf_len _ e Wl He)). unfold en. lia.
  - intros e He. destruct y as [|e0 y]; [destruct He|].
    rewrite ltb33 in H4 by (try assumption; apply (wf_len _ e0 Wh); left; reflexivity).
    assert (en e0 <= en e).
    { destruct He as [<-|He]; [lia|]. pose proof (sorted_lt _ _ Wh e He). lia. }
    unfold en in *. lia.
Qed.

(** ** put and get *)
Lemma put_spec b k v : wf_bucket b -> length k = 33%nat ->
  wf_bucket (put b k v) /\ forall e, In e (put b k v) <-> e = (k, v) \/ (In e b /\ fst e <> k).
Proof.
  intros W Hk. induction b as [|[k' v'] b IH].
  - cbn [put]. split.
    + split; [cbn; auto|]. repeat constructor; exact Hk.
    + intros e; cbn. split; [intros [<-|[]]; left; reflexivity | intros [->|[[] _]]; left; reflexivity].
  - assert (Lk' : length k' = 33%nat) by (apply (wf_len _ (k', v') W); left; reflexivity).
    cbn [put]. destruct (bytes_cmp k k') eqn:C.
    + apply bytes_cmp_eq in C. subst k'. split.
      * destruct W as [[H1 H2] F]. split; [split; assumption|]. inversion F; subst. constructor; assumption.
      * intros e. cbn [In]. split.
        -- intros [<-|He]; [left; reflexivity|]. right. split; [right; exact He|].
           intros E. pose proof (sorted_lt _ _ W e He). unfold en in *. cbn [fst] in *. rewrite E in *. lia.
        -- intros [->|[[<-|He] Hne]]; [left; reflexivity|contradiction|right; exact He].
    + assert (Hlt : be_decode k < be_decode k') by (rewrite cmp33 in C by assumption; exact C).
      split.
      * split.
        -- cbn [sorted]. split; [exact C|apply W].
        -- constructor; [exact Hk|apply W].
      * intros e. cbn [In]. split.
        -- intros [<-|He]; [left; reflexivity|]. right. split; [exact He|].
           intros E. destruct He as [<-|He]; [cbn in E; subst; lia|].
           pose proof (sorted_lt _ _ W e He). unfold en in *; cbn [fst] in *. rewrite E in *. lia.
        -- intros [->|[He _]]; [left; reflexivity|right; exact He].
    + assert (Hgt : be_decode k' < be_decode k) by (rewrite cmp33 in C by assumption; apply Z.compare_gt_iff in C; lia).
      destruct (IH (wf_cons _ _ W)) as [W' HI]. split.
      * change ((k', v') :: put b k v) with ([(k', v')] ++ put b k v). apply wf_app.
        -- split; [cbn; auto|]. repeat constructor; exact Lk'.
        -- exact W'.
        -- intros x y [<-|[]] Hy. apply HI in Hy as [->|[Hy _]]; [exact Hgt|exact (sorted_lt _ _ W y Hy)].
      * intros e. cbn [In]. rewrite HI. split.
        -- intros [<-|[->|[He Hne]]]; [right; split; [left; reflexivity|cbn; intros ->; lia]|left; reflexivity|right; auto].
        -- intros [->|[[<-|He] Hne]]; auto.
Qed.
Lemma get_In b k v : wf_bucket b -> (get b k = Some v <-> In (k, v) b).
Proof.
  intros W. induction b as [|[k' v'] b IH]; cbn [get]; [split; [discriminate|intros []]|].
  destruct (bytes_eqb k' k) eqn:E.
  - apply bytes_eqb_eq in E. subst k'. split.
    + intros [= ->]. left; reflexivity.
    + intros [[= ->]|H]; [reflexivity|]. f_equal. apply (key_unique _ k _ _ W); [left; reflexivity|right; exact H].
  - rewrite (IH (wf_cons _ _ W)). apply bytes_eqb_neq in E. split; [right; assumption|].
    intros [[= H1 H2]|H]; [contradiction|exact H].
Qed.
Lemma get_None b k : get b k = None <-> forall v, ~ In (k, v) b.
Proof.
  induction b as [|[k' v'] b IH]; cbn [get]; [split; [intros _ v []|reflexivity]|].
  destruct (bytes_eqb k' k) eqn:E.
  - apply bytes_eqb_eq in E. subst k'. split; [discriminate|]. intros H. exfalso. apply (H v'). left; reflexivity.
  - apply bytes_eqb_neq in E. rewrite IH. split.
    + intros H v [[= H1 _]|H1]; [contradiction|exact (H v H1)].
    + intros H v H1. apply (H v). right; exact H1.
Qed.

(** ** keys with a given prefix *)
Lemma key_of_prefix x o k : length x = 33%nat -> is_u64 o -> wf_Key k -> be_decode x / 2^64 = knum o k ->
  x = newIndexKey o k (be_decode x mod 2^64) /\ is_u64 (be_decode x mod 2^64).
Proof.
  intros L Ho Hk E. destruct (key_split x L) as [Ex (Wo & Wk & Wg)].
  assert (N : be_decode x = num (ik_Owner x) (ik_Key x) (ik_Generation x)) by (apply key_num; exact L).
  rewrite N in *. rewrite num_div in E by exact Wg. rewrite num_mod by exact Wg.
  apply knum_inj in E as [E1 E2]; try assumption. split; [|exact Wg]. rewrite <- E1, <- E2. exact Ex.
Qed.
Lemma leb_pfx a b : length a = 33%nat -> length b = 33%nat ->
  bytes_leb (firstn 25 a) (firstn 25 b) = (be_decode a / 2^64 <=? be_decode b / 2^64).
Proof.
  intros Ha Hb. unfold bytes_leb. rewrite bytes_cmp_be by (rewrite !firstn_length; lia).
  rewrite !be_pfx25 by assumption. unfold Z.leb. destruct (_ ?= _); reflexivity.
Qed.
Lemma eqb_pfx a b : length a = 33%nat -> length b = 33%nat ->
  bytes_eqb (firstn 25 a) (firstn 25 b) = (be_decode a / 2^64 =? be_decode b / 2^64).
Proof. intros Ha Hb. rewrite eqb33 by (rewrite !firstn_length; lia). rewrite !be_pfx25 by assumption. reflexivity. Qed.

(** ** find, completely *)
Definition stored (b : bucket) (o : Z) (k : Key) (g : Z) (v : list byte) : Prop := In (newIndexKey o k g, v) b.
Lemma find_spec b o k g : wf_bucket b -> wf_tuple o k g ->
  match find b o k g with
  | Panic => forall e, In e b -> en e < num o k g
  | Timeout => False
  | Ok None => (forall g' v, is_u64 g' -> ~ stored b o k g' v) /\ (exists e, In e b /\ num o k g <= en e)
  | Ok (Some (fk, v)) => exists g', fk = newIndexKey o k g' /\ is_u64 g' /\ stored b o k g' v /\
      ((g <= g' /\ forall g'' v'', is_u64 g'' -> stored b o k g'' v'' -> g <= g'' -> g' <= g'') \/
       (g' < g /\ forall g'' v'', is_u64 g'' -> stored b o k g'' v'' -> g'' <= g'))
  end.
Proof.
  intros W WT. pose proof WT as (Ho & Hk & Hg).
  assert (LS : length (newIndexKey o k g) = 33%nat) by apply newIndexKey_length.
  unfold find. destruct (seek_spec b _ W LS) as (lo & hi & Hb & Hs & Hlo & Hhi). rewrite Hs.
  rewrite newIndexKey_num in Hlo, Hhi by exact WT.
  assert (ST : forall g' v, is_u64 g' -> stored b o k g' v -> en (newIndexKey o k g', v) = num o k g').
  { intros g' v Hg' _. unfold en; cbn [fst]. apply newIndexKey_num. unfold wf_tuple; auto. }
  destruct (wf_app_inv lo hi) as (Wl & Wh & Hlh); [rewrite <- Hb; exact W|].
  unfold cur_entry. cbn [snd].
  destruct hi as [|[fk fv] hi].
  { intros e He. apply Hlo. rewrite Hb, app_nil_r in He. exact He. }
  assert (Lf : length fk = 33%nat) by (apply (wf_len _ (fk, fv) Wh); left; reflexivity).
  assert (Nf : num o k g <= be_decode fk) by (apply (Hhi (fk, fv)); left; reflexivity).
  rewrite leb_pfx by assumption. rewrite newIndexKey_num by exact WT. rewrite num_div by exact Hg.
  assert (Hge : knum o k <= be_decode fk / 2^64).
  { rewrite <- (num_div o k g) by exact Hg. apply Z.div_le_mono; lia. }
  destruct (be_decode fk / 2 ^ 64 <=? knum o k) eqn:E.
  - destruct (key_of_prefix fk o k Lf Ho Hk ltac:(lia)) as [Ek Hgk].
    set (g' := be_decode fk mod 2^64) in *. exists g'. split; [exact Ek|]. split; [exact Hgk|].
    assert (Hst : stored b o k g' fv) by (unfold stored; rewrite <- Ek, Hb; apply in_or_app; right; left; reflexivity).
    assert (N' : be_decode fk = num o k g') by (rewrite Ek; apply newIndexKey_num; unfold wf_tuple; auto).
    split; [exact Hst|]. left. split; [unfold num in *; lia|].
    intros g'' v'' Hg'' Hst'' Hle. pose proof (ST g'' v'' Hg'' Hst'') as N''.
    unfold stored in Hst''. rewrite Hb in Hst''. apply in_app_or in Hst'' as [H|H].
    + apply Hlo in H. rewrite N'' in H. unfold num in H. lia.
    + assert (be_decode fk <= en (newIndexKey o k g'', v'')).
      { destruct H as [H|H]; [rewrite <- H; unfold en; cbn [fst]; lia|]. pose proof (sorted_lt _ _ Wh _ H). unfold en in *. cbn [fst] in *. lia. }
      rewrite N'' in *. unfold num in *. lia.
  - assert (NoGe : forall g'' v'', is_u64 g'' -> stored b o k g'' v'' -> g'' < g).
    { intros g'' v'' Hg'' Hst. pose proof (ST g'' v'' Hg'' Hst) as N''. unfold stored in Hst. rewrite Hb in Hst.
      apply in_app_or in Hst as [H|H].
      - apply Hlo in H. rewrite N'' in H. unfold num in H. lia.
      - assert (be_decode fk <= en (newIndexKey o k g'', v'')).
        { destruct H as [H|H]; [rewrite <- H; unfold en; cbn [fst]; lia|]. pose proof (sorted_lt _ _ Wh _ H). unfold en in *. cbn [fst] in *. lia. }
        rewrite N'' in *. assert (be_decode fk / 2^64 <= num o k g'' / 2^64) by (apply Z.div_le_mono; lia).
        rewrite num_div in * by assumption. lia. }
    assert (Hex : exists e, In e b /\ num o k g <= en e).
    { exists (fk, fv). split; [rewrite Hb; apply in_or_app; right; left; reflexivity|exact Nf]. }
    unfold prev_entry; cbn [fst]. destruct (rev lo) as [|[pk pv] rl] eqn:Er.
    + split; [|exact Hex]. intros g'' v'' Hg'' Hst. pose proof (NoGe g'' v'' Hg'' Hst).
      assert (lo = []) by (rewrite <- (rev_involutive lo), Er; reflexivity). subst lo.
      pose proof (ST g'' v'' Hg'' Hst) as N''. unfold stored in Hst. rewrite Hb in Hst. cbn [app] in Hst.
      pose proof (Hhi _ Hst). rewrite N'' in *. unfold num in *. lia.
    + assert (El : lo = rev rl ++ [(pk, pv)]) by (rewrite <- (rev_involutive lo), Er; reflexivity).
      assert (Inp : In (pk, pv) lo) by (rewrite El; apply in_or_app; right; left; reflexivity).
      assert (Lp : length pk = 33%nat) by (apply (wf_len _ (pk, pv) Wl Inp)).
      replace (0 <? zlen pk) with true by (unfold zlen; lia). cbn [andb].
      rewrite eqb_pfx by assumption. rewrite newIndexKey_num by exact WT. rewrite num_div by exact Hg.
      (* last of lo dominates *)
      assert (Dom : forall e, In e lo -> en e <= be_decode pk).
      { intros e He. rewrite El in He. apply in_app_or in He as [He|[<-|[]]]; [|apply Z.le_refl].
        rewrite El in Wl. destruct (wf_app_inv _ _ Wl) as (_ & _ & Hlt).
        pose proof (Hlt e (pk, pv) He (or_introl eq_refl)). unfold en in *. cbn [fst] in *. lia. }
      assert (InLo : forall g'' v'', is_u64 g'' -> stored b o k g'' v'' -> num o k g'' <= be_decode pk /\ num o k g'' < num o k g).
      { intros g'' v'' Hg'' Hst. pose proof (NoGe g'' v'' Hg'' Hst) as Hlt.
        pose proof (ST g'' v'' Hg'' Hst) as N''. unfold stored in Hst. rewrite Hb in Hst. apply in_app_or in Hst as [H|H].
        - pose proof (Dom _ H). rewrite N'' in *. unfold num in *. lia.
        - pose proof (Hhi _ H). rewrite N'' in *. unfold num in *. lia. }
      destruct (be_decode pk / 2 ^ 64 =? knum o k) eqn:Ep.
      * destruct (key_of_prefix pk o k Lp Ho Hk ltac:(lia)) as [Ek Hgk].
        set (g' := be_decode pk mod 2^64) in *.
        assert (N' : be_decode pk = num o k g') by (rewrite Ek; apply newIndexKey_num; unfold wf_tuple; auto).
        assert (Hst : stored b o k g' pv) by (unfold stored; rewrite <- Ek, Hb; apply in_or_app; left; exact Inp).
        exists g'. split; [exact Ek|]. split; [exact Hgk|]. split; [exact Hst|]. right.
        split; [exact (NoGe g' pv Hgk Hst)|].
        intros g'' v'' Hg'' Hst''. destruct (InLo g'' v'' Hg'' Hst'') as [H1 _]. unfold num in *. lia.
      * split; [|exact Hex]. intros g'' v'' Hg'' Hst. destruct (InLo g'' v'' Hg'' Hst) as [H1 H2].
        assert (Hp : be_decode pk < num o k g) by exact (Hlo (pk, pv) Inp).
        assert (A : num o k g'' / 2^64 <= be_decode pk / 2^64) by (apply Z.div_le_mono; lia).
        assert (B : be_decode pk / 2^64 <= num o k g / 2^64) by (apply Z.div_le_mono; lia).
        rewrite num_div in A by exact Hg''. rewrite num_div in B by exact Hg. lia.
Qed.

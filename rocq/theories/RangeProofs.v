(** Proofs about range iteration. *)
From Verif Require Import Go GoProofs Layout LayoutProofs KeyFmt KeyProofs Bolt Store StoreProofs SpecStore.
From Coq Require Import ZifyBool ZifyNat ZifyN Sorted.
Ltac Zify.zify_post_hook ::= Z.div_mod_to_equations.

(** ** the entry a Seek lands on *)
Lemma cur_seek b k : wf_bucket b -> length k = 33%nat ->
  match cur_entry (seek b k) with
  | None => forall e, In e b -> en e < be_decode k
  | Some e => In e b /\ be_decode k <= en e /\ forall x, In x b -> be_decode k <= en x -> en e <= en x
  end.
Proof.
  intros W L. destruct (seek_spec b k W L) as (lo & hi & Hb & Hs & Hlo & Hhi). rewrite Hs.
  unfold cur_entry; cbn [snd]. destruct hi as [|e hi].
  - intros x Hx. rewrite Hb, app_nil_r in Hx. exact (Hlo x Hx).
  - split; [rewrite Hb; apply in_or_app; right; left; reflexivity|].
    split; [apply Hhi; left; reflexivity|].
    intros x Hx Hle. rewrite Hb in Hx. apply in_app_or in Hx as [Hx|[<-|Hx]].
    + specialize (Hlo x Hx). lia.
    + lia.
    + destruct (wf_app_inv lo (e :: hi)) as (_ & Wh & _); [rewrite <- Hb; exact W|].
      pose proof (sorted_lt _ _ Wh x Hx). lia.
Qed.
Lemma exact_seek b k : wf_bucket b -> length k = 33%nat ->
  match cur_entry (seek b k) with
  | None => None
  | Some (f, v) => if bytes_leb f k then Some (f, v) else None
  end = match get b k with Some v => Some (k, v) | None => None end.
Proof.
  intros W L. pose proof (cur_seek b k W L) as H. destruct (cur_entry (seek b k)) as [[f v]|].
  - destruct H as (Hin & Hle & Hmin).
    assert (Lf : length f = 33%nat) by exact (wf_len _ (f, v) W Hin).
    rewrite leb33 by assumption. destruct (be_decode f <=? be_decode k) eqn:E.
    + assert (f = k) by (apply be_decode_inj; [congruence|unfold en in *; cbn [fst] in *; lia]). subst f.
      replace (get b k) with (Some v); [reflexivity|]. symmetry. apply get_In; assumption.
    + destruct (get b k) as [v'|] eqn:G; [|reflexivity]. exfalso. apply get_In in G; [|exact W].
      specialize (Hmin (k, v') G). unfold en in *; cbn [fst] in *. lia.
  - destruct (get b k) as [v'|] eqn:G; [|reflexivity]. exfalso. apply get_In in G; [|exact W].
    specialize (H _ G). unfold en in H; cbn [fst] in H. lia.
Qed.
Lemma max64_u64 : is_u64 max64. Proof. unfold is_u64, max64; lia. Qed.
Lemma wf_ik e b : wf_bucket b -> In e b -> wf_tuple (ik_Owner (fst e)) (ik_Key (fst e)) (ik_Generation (fst e)) /\
  fst e = newIndexKey (ik_Owner (fst e)) (ik_Key (fst e)) (ik_Generation (fst e)) /\
  en e = num (ik_Owner (fst e)) (ik_Key (fst e)) (ik_Generation (fst e)).
Proof.
  intros W H. assert (L := wf_len _ _ W H). destruct (key_split _ L) as [E1 E2].
  split; [exact E2|]. split; [exact E1|]. unfold en. apply key_num; exact L.
Qed.
Lemma findNext_spec b o k g : wf_bucket b -> wf_tuple o k g ->
  findNext b (newIndexKey o k g) None =
  match cur_entry (seek b (newIndexKey o k max64)) with
  | None => None
  | Some e => match get b (newIndexKey o (ik_Key (fst e)) g) with
              | Some v => Some (newIndexKey o (ik_Key (fst e)) g, v) | None => None end
  end.
Proof.
  intros W WT. unfold findNext. destruct (ik_built o k g WT) as (-> & _ & _ & _ & -> & ->).
  pose proof (cur_seek b (newIndexKey o k max64) W (newIndexKey_length _ _ _)) as H.
  destruct (cur_entry (seek b (newIndexKey o k max64))) as [[f v]|]; [|reflexivity].
  cbn [fst]. rewrite <- exact_seek by (try exact W; apply newIndexKey_length).
  destruct (cur_entry _) as [[f' v']|]; [|reflexivity]. destruct (bytes_leb _ _); reflexivity.
Qed.

(** ** lowerBound *)
Lemma lowerBound_loop_key gen cur rest : (forall e, In e rest -> length (fst e) = 33%nat) -> length cur = 33%nat ->
  lowerBound_loop gen cur rest = ik_Key cur.
Proof.
  revert cur; induction rest as [|[n v] rest IH]; intros cur HL Hc; cbn [lowerBound_loop]; [reflexivity|].
  assert (Ln : length n = 33%nat) by (apply (HL (n, v)); left; reflexivity).
  destruct (bytes_eqb (firstn 25 n) (firstn 25 cur)) eqn:E; [|reflexivity].
  destruct (gen <? ik_Generation n); [reflexivity|].
  rewrite IH; [|intros e He; apply HL; right; exact He|exact Ln].
  rewrite eqb_pfx in E by assumption.
  destruct (key_split n Ln) as [_ (Wo & Wk & Wg)]. destruct (key_split cur Hc) as [_ (Wo' & Wk' & Wg')].
  rewrite (key_num n Ln), (key_num cur Hc), !num_div in E by assumption.
  apply Z.eqb_eq in E. apply knum_inj in E as [_ E]; assumption.
Qed.
(** comparison of a key with a shorter prefix *)
Lemma ltb_prefix a p : (length p <= length a)%nat -> bytes_ltb a p = bytes_ltb (firstn (length p) a) p.
Proof.
  unfold bytes_ltb. revert p; induction a as [|x a IH]; intros [|y p] H; cbn [length firstn bytes_cmp] in *; try reflexivity; try lia.
  destruct (bz x ?= bz y); [|reflexivity|reflexivity]. apply IH. lia.
Qed.
Lemma knum_pfx17 o k g : wf_tuple o k g -> num o k g / 2^128 = (o * 2^8 + KType k) * 2^64 + ObjectID k.
Proof.
  intros (Ho & (H1 & H2 & H3) & Hg). change (2^128) with (2^64 * 2^64). rewrite <- Z.div_div by lia.
  rewrite num_div by exact Hg. unfold knum. unfold is_u64 in *. rewrite Z.div_add_l by lia.
  rewrite Z.div_small by lia. lia.
Qed.
Definition gnum (o t id : Z) : Z := (o * 2^8 + t) * 2^64 + id.
Lemma seek_prefix_spec b o k : wf_bucket b -> wf_tuple o k 0 ->
  let p := firstn 17 (newIndexKey o k 0) in
  exists lo hi, b = lo ++ hi /\ seek b p = (rev lo, hi) /\
    (forall e, In e lo -> en e / 2^128 < gnum o (KType k) (ObjectID k)) /\
    (forall e, In e hi -> gnum o (KType k) (ObjectID k) <= en e / 2^128).
Proof.
  intros W WT p.
  assert (Lp : length p = 17%nat) by (unfold p; rewrite firstn_length, newIndexKey_length; reflexivity).
  assert (Np : be_decode p = gnum o (KType k) (ObjectID k)).
  { unfold p. rewrite be_pfx17 by apply newIndexKey_length. rewrite newIndexKey_num by exact WT. apply knum_pfx17; exact WT. }
  assert (LT : forall x, length x = 33%nat -> bytes_ltb x p = (be_decode x / 2^128 <? be_decode p)).
  { intros x Lx. rewrite ltb_prefix by lia. rewrite Lp. unfold bytes_ltb. rewrite bytes_cmp_be by (rewrite firstn_length; lia).
    rewrite be_pfx17 by exact Lx. unfold Z.ltb. destruct (_ ?= _); reflexivity. }
  pose proof (seek_from_spec [] b p) as H. unfold seek. destruct (seek_from [] b p) as [x y].
  destruct H as (lo & -> & Hb & H3 & H4). rewrite app_nil_r. exists lo, y.
  destruct (wf_app_inv lo y) as (Wl & Wh & _); [rewrite <- Hb; exact W|].
  split; [exact Hb|]. split; [reflexivity|]. split.
  - intros e He. rewrite Forall_forall in H3. specialize (H3 e He). rewrite LT in H3 by exact (wf_len _ _ Wl He). unfold en. lia.
  - intros e He. destruct y as [|e0 y]; [destruct He|].
    rewrite LT in H4 by (apply (wf_len _ e0 Wh); left; reflexivity).
    assert (en e0 <= en e) by (destruct He as [<-|He]; [lia|pose proof (sorted_lt _ _ Wh e He); lia]).
    assert (en e0 / 2^128 <= en e / 2^128) by (apply Z.div_le_mono; lia). unfold en in *. lia.
Qed.
(** lowerBound returns the first FS key with that owner, type and object id, or KL() *)
Lemma lowerBound_spec b o k gen : wf_bucket b -> wf_tuple o k 0 ->
  let K := lowerBound b o k gen 17 in
  (exists g v, is_u64 g /\ wf_Key K /\ stored b o K g v /\ KType K = KType k /\ ObjectID K = ObjectID k /\
     forall f g' v', is_u64 f -> is_u64 g' -> stored b o (mkKey (ObjectID k) (KType k) f) g' v' -> KOffset K <= f) \/
  (K = KL0 /\ forall f g' v', is_u64 f -> is_u64 g' -> ~ stored b o (mkKey (ObjectID k) (KType k) f) g' v').
Proof.
  intros W WT K. pose proof WT as (Ho & (Hi & Ht & _) & _).
  destruct (seek_prefix_spec b o k W WT) as (lo & hi & Hb & Hs & Hlo & Hhi).
  assert (ST : forall f g' v', is_u64 f -> is_u64 g' -> stored b o (mkKey (ObjectID k) (KType k) f) g' v' ->
     en (newIndexKey o (mkKey (ObjectID k) (KType k) f) g', v') = num o (mkKey (ObjectID k) (KType k) f) g' /\
     en (newIndexKey o (mkKey (ObjectID k) (KType k) f) g', v') / 2^128 = gnum o (KType k) (ObjectID k)).
  { intros f g' v' Hf Hg' _.
    assert (WT' : wf_tuple o (mkKey (ObjectID k) (KType k) f) g') by (unfold wf_tuple, wf_Key; cbn; auto).
    unfold en; cbn [fst]. rewrite newIndexKey_num by exact WT'. split; [reflexivity|]. apply knum_pfx17 in WT'. exact WT'. }
  unfold K, lowerBound. rewrite Hs. cbn [snd]. destruct hi as [|[cur v] hi].
  { right. split; [reflexivity|]. intros f g' v' Hf Hg' Hst. destruct (ST f g' v' Hf Hg' Hst) as [_ E].
    unfold stored in Hst. rewrite Hb, app_nil_r in Hst. apply Hlo in Hst. lia. }
  pose proof W as Wb; rewrite Hb in Wb.
  destruct (wf_app_inv _ _ Wb) as (Wl & Wh & _).
  assert (Lc : length cur = 33%nat) by (apply (wf_len _ (cur, v) Wh); left; reflexivity).
  assert (Hc := Hhi (cur, v) (or_introl eq_refl)).
  assert (EQ : bytes_eqb (firstn 17 cur) (firstn 17 (newIndexKey o k 0)) = (be_decode cur / 2^128 =? gnum o (KType k) (ObjectID k))).
  { rewrite eqb33 by (rewrite !firstn_length, newIndexKey_length, Lc; reflexivity).
    rewrite !be_pfx17 by (try exact Lc; apply newIndexKey_length). rewrite newIndexKey_num by exact WT.
    rewrite knum_pfx17 by exact WT. reflexivity. }
  rewrite EQ. destruct (be_decode cur / 2^128 =? gnum o (KType k) (ObjectID k)) eqn:E.
  - left. rewrite lowerBound_loop_key; [|intros e He; apply (wf_len _ e Wh); right; exact He|exact Lc].
    destruct (key_split cur Lc) as [Ec Wc]. pose proof Wc as (Wo & Wk & Wg).
    pose proof (knum_pfx17 _ _ _ Wc) as P. rewrite <- key_num in P by exact Lc. 
    assert (EE : ik_Owner cur = o /\ KType (ik_Key cur) = KType k /\ ObjectID (ik_Key cur) = ObjectID k).
    { unfold gnum in E. destruct Wk as (W1 & W2 & W3). unfold is_u64, is_u8 in *. lia. }
    destruct EE as (E1 & E2 & E3).
    exists (ik_Generation cur), v. split; [exact Wg|]. split; [exact Wk|]. split.
    { unfold stored. rewrite <- E1, <- Ec, Hb. apply in_or_app; right; left; reflexivity. }
    split; [exact E2|]. split; [exact E3|].
    intros f g' v' Hf Hg' Hst. destruct (ST f g' v' Hf Hg' Hst) as [E4 E5].
    unfold stored in Hst. rewrite Hb in Hst. apply in_app_or in Hst as [H|H]; [apply Hlo in H; lia|].
    assert (be_decode cur <= en (newIndexKey o (mkKey (ObjectID k) (KType k) f) g', v')).
    { destruct H as [H|H]; [rewrite <- H; apply Z.le_refl|]. pose proof (sorted_lt _ _ Wh _ H). unfold en in *. cbn [fst] in *. lia. }
    rewrite E4 in H0. rewrite (key_num cur Lc) in H0. unfold num, knum in H0. cbn [ObjectID KType KOffset] in H0.
    rewrite E1, E2, E3 in H0. destruct Wk as (W1 & W2 & W3). unfold is_u64 in *. lia.
  - right. split; [reflexivity|]. intros f g' v' Hf Hg' Hst. destruct (ST f g' v' Hf Hg' Hst) as [E4 E5].
    unfold stored in Hst. rewrite Hb in Hst. apply in_app_or in Hst as [H|H]; [apply Hlo in H; lia|].
    assert (be_decode cur <= en (newIndexKey o (mkKey (ObjectID k) (KType k) f) g', v')).
    { destruct H as [H|H]; [rewrite <- H; apply Z.le_refl|]. pose proof (sorted_lt _ _ Wh _ H). unfold en in *. cbn [fst] in *. lia. }
    assert (be_decode cur / 2^128 <= en (newIndexKey o (mkKey (ObjectID k) (KType k) f) g', v') / 2^128) by (apply Z.div_le_mono; lia).
    unfold en in Hc. cbn [fst] in Hc. lia.
Qed.

(** ** the loop *)
Definition vdata (v : list byte) : list byte := match valueData v with Ok d => sbytes d | _ => [] end.
(** every value of the owner's tree has its data *)
Definition data_ok (b : bucket) (o : Z) : Prop :=
  forall k g v, wf_Key k -> is_u64 g -> stored b o k g v -> exists d, valueData v = Ok d.
Definition no_max_gen (b : bucket) (o : Z) : Prop := forall k v, wf_Key k -> ~ stored b o k max64 v.
(** the first entry of the following owner does not have an FS key that the
    owner has as well *)
Definition no_alias (b : bucket) (o : Z) : Prop :=
  forall N, In N b -> o < ik_Owner (fst N) ->
    (forall e, In e b -> o < ik_Owner (fst e) -> bytes_leb (fst N) (fst e) = true) ->
    forall g v, is_u64 g -> ~ stored b o (ik_Key (fst N)) g v.

(** iterating up to [last] cannot run into the following owner: the owner has a
    key behind [last], or the following owner's first key is not shared *)
Definition no_wrap (b : bucket) (o : Z) (last : Key) : Prop :=
  no_alias b o \/ exists x, present b o x /\ key_lt last x.

(** what an iteration over the keys [ks] yields starting at generation [g] *)
Fixpoint yields (b : bucket) (o g : Z) (ks : list Key) : list (list byte * list byte) :=
  match ks with
  | [] => []
  | k :: r => match get b (newIndexKey o k g) with
              | Some v => (newIndexKey o k g, v) :: yields b o g r
              | None => []
              end
  end.
Notation has := present.
(** running the loop body over a list of (index key, value) pairs *)
Fixpoint fold_range {S} (body : Range -> slice -> S -> Res (S * bool)) (E : list byte)
    (l : list (list byte * list byte)) (s : S) : Res S :=
  match l with
  | [] => Ok s
  | (ik, v) :: l => d <- valueData v ;; ' (s', brk) <- body (mkRange (Some ik) E v) d s ;;
                    if (brk : bool) then Ok s' else fold_range body E l s'
  end.
Lemma fold_collect E l acc : (forall ik v, In (ik, v) l -> exists d, valueData v = Ok d) ->
  fold_range collect_body E l acc = Ok (acc ++ map (fun e => (fst e, vdata (snd e))) l).
Proof.
  revert acc; induction l as [|[ik v] l IH]; intros acc H; cbn [fold_range map]; [rewrite app_nil_r; reflexivity|].
  destruct (H ik v (or_introl eq_refl)) as [d Hd]. rewrite Hd. cbn [rbind collect_body r_key fst snd].
  rewrite IH by (intros; apply (H ik0); right; assumption). rewrite <- app_assoc. unfold vdata. rewrite Hd. reflexivity.
Qed.

Lemma knum_owner o k : wf_Key k -> o * 2^136 <= knum o k < (o + 1) * 2^136.
Proof. intros (H1 & H2 & H3). unfold knum, is_u64, is_u8 in *. lia. Qed.
Lemma en_knum b e : wf_bucket b -> In e b ->
  en e = knum (ik_Owner (fst e)) (ik_Key (fst e)) * 2^64 + ik_Generation (fst e) /\ is_u64 (ik_Owner (fst e)) /\
  wf_Key (ik_Key (fst e)) /\ is_u64 (ik_Generation (fst e)) /\
  stored b (ik_Owner (fst e)) (ik_Key (fst e)) (ik_Generation (fst e)) (snd e).
Proof.
  intros W H. destruct (wf_ik e b W H) as ((W1 & W2 & W3) & E & N). split; [exact N|]. split; [exact W1|]. split; [exact W2|]. split; [exact W3|].
  unfold stored. rewrite <- E. destruct e; exact H.
Qed.
Lemma en_stored b o k g v : wf_bucket b -> is_u64 o -> wf_Key k -> is_u64 g -> stored b o k g v ->
  en (newIndexKey o k g, v) = knum o k * 2^64 + g.
Proof. intros W Ho Hk Hg _. unfold en; cbn [fst]. apply newIndexKey_num. unfold wf_tuple; auto. Qed.

Lemma key_lt_knum o x y : wf_Key x -> wf_Key y -> (key_lt x y <-> knum o x < knum o y).
Proof.
  intros (H1 & H2 & H3) (H1' & H2' & H3'). unfold key_lt, knum, is_u64, is_u8 in *. lia.
Qed.
Section Rng.
Variables (b : bucket) (o : Z).
Hypothesis W : wf_bucket b.
Hypothesis Ho : is_u64 o.
Hypothesis NM : no_max_gen b o.

(** the FS key findNext looks at *)
Definition nextKey (k : Key) : option (Z * Key) :=
  match cur_entry (seek b (newIndexKey o k max64)) with
  | None => None | Some e => Some (ik_Owner (fst e), ik_Key (fst e)) end.
Lemma nextKey_spec k : wf_Key k ->
  match nextKey k with
  | None => forall x, has b o x -> knum o x <= knum o k
  | Some (o', k') => (o' = o /\ has b o k' /\ knum o k < knum o k' /\ forall x, has b o x -> knum o k < knum o x -> knum o k' <= knum o x)
      \/ (o < o' /\ (forall x, has b o x -> knum o x <= knum o k) /\
          exists N, In N b /\ ik_Owner (fst N) = o' /\ ik_Key (fst N) = k' /\
             forall e, In e b -> o < ik_Owner (fst e) -> bytes_leb (fst N) (fst e) = true)
  end.
Proof.
  intros Hk. unfold nextKey.
  pose proof (cur_seek b _ W (newIndexKey_length o k max64)) as H.
  rewrite newIndexKey_num in H by (split; [exact Ho|split; [exact Hk|exact max64_u64]]).
  change (num o k max64) with (knum o k * 2^64 + max64) in H.
  destruct (cur_entry _) as [e|].
  2:{ intros x (Hx & g & v & Hg & Hst). specialize (H _ Hst). rewrite (en_stored b) in H by assumption.
      unfold is_u64, max64 in *. lia. }
  destruct H as (Hin & Hle & Hmin). destruct (en_knum b e W Hin) as (Ee & Weo & Wek & Weg & Hst).
  set (eo := ik_Owner (fst e)) in *. set (ek := ik_Key (fst e)) in *. set (eg := ik_Generation (fst e)) in *.
  assert (Hmin' : forall x, has b o x -> knum o k < knum o x -> en e <= knum o x * 2^64 + max64 /\ exists g, is_u64 g /\ en e <= knum o x * 2^64 + g).
  { intros x (Hx & g & v & Hg & Hs) Hlt. specialize (Hmin _ Hs). rewrite (en_stored b) in Hmin by assumption.
    unfold is_u64, max64 in *. split; [lia|]. exists g. split; lia. }
  pose proof (knum_owner eo ek Wek) as R1. pose proof (knum_owner o k Hk) as R2.
  assert (Hge : knum o k <= knum eo ek) by (unfold is_u64, max64 in *; lia).
  destruct (Z.eq_dec eo o) as [Eo|Eo].
  - left. split; [exact Eo|]. rewrite Eo in *.
    assert (Hgt : knum o k < knum o ek).
    { destruct (Z.eq_dec (knum o k) (knum o ek)) as [E|E]; [exfalso|lia].
      apply knum_inj in E as [_ E]; try assumption.
      assert (eg = max64) by (rewrite <- E in *; unfold is_u64, max64 in *; lia).
      rewrite H in Hst. exact (NM ek (snd e) Wek Hst). }
    split; [split; [exact Wek|eauto]|]. split; [exact Hgt|].
    intros x Hx Hlt. destruct (Hmin' x Hx Hlt) as (_ & g & Hg & Hle'). rewrite Ee in Hle'. unfold is_u64 in *. lia.
  - right. assert (Ho' : o < eo) by lia. split; [exact Ho'|]. split.
    + intros x Hx. destruct (Z_le_dec (knum o x) (knum o k)) as [|Hgt]; [assumption|exfalso].
      destruct (Hmin' x Hx ltac:(lia)) as (Hle' & _). pose proof (knum_owner o x (proj1 Hx)). rewrite Ee in Hle'. unfold is_u64, max64 in *. lia.
    + exists e. split; [exact Hin|]. split; [reflexivity|]. split; [reflexivity|].
      intros x Hx Hlt. rewrite leb33 by (apply (wf_len b); assumption). apply Z.leb_le. apply (Hmin x Hx).
      destruct (en_knum b x W Hx) as (Ex & Wxo & Wxk & Wxg & _). pose proof (knum_owner (ik_Owner (fst x)) _ Wxk). rewrite Ex. unfold is_u64, max64 in *. lia.
Qed.
Lemma findNext_key k g : wf_Key k -> is_u64 g ->
  findNext b (newIndexKey o k g) None =
  match nextKey k with
  | None => None
  | Some (_, k') => match get b (newIndexKey o k' g) with Some v => Some (newIndexKey o k' g, v) | None => None end
  end.
Proof.
  intros Hk Hg. rewrite findNext_spec by (try exact W; unfold wf_tuple; auto). unfold nextKey.
  destruct (cur_entry _) as [e|]; reflexivity.
Qed.

Variables (L : Key) (gen : Z).
Hypothesis HL : wf_Key L.
Hypothesis Hgen : is_u64 gen.
Hypothesis NA : no_wrap b o L.
Hypothesis ND : data_ok b o.

Lemma HasNext_num k g v : wf_Key k -> is_u64 g ->
  HasNext (mkRange (Some (newIndexKey o k g)) (newIndexKey o L gen) v) = (knum o k * 2^64 + g <=? knum o L * 2^64 + gen).
Proof.
  intros Hk Hg. unfold HasNext; cbn [r_key r_end]. rewrite leb33 by apply newIndexKey_length.
  rewrite !newIndexKey_num by (unfold wf_tuple; auto). reflexivity.
Qed.
Lemma nextKey_wf k o' k' : wf_Key k -> nextKey k = Some (o', k') -> wf_Key k'.
Proof.
  intros Hk. unfold nextKey. pose proof (cur_seek b _ W (newIndexKey_length o k max64)) as H.
  destruct (cur_entry _) as [e|]; [|discriminate]. intros [= <- <-]. destruct H as (Hin & _).
  apply (en_knum b e W Hin).
Qed.

(** one step: the next key of the owner if it has the same generation *)
Lemma step k g v0 : wf_Key k -> is_u64 g -> knum o k <= knum o L ->
  (exists k' v d, wf_Key k' /\ stored b o k' g v /\ valueData v = Ok d /\
     has b o k' /\ knum o k < knum o k' /\ (forall x, has b o x -> knum o k < knum o x -> knum o k' <= knum o x) /\
     Range_Next b (mkRange (Some (newIndexKey o k g)) (newIndexKey o L gen) v0) =
       Ok (mkRange (Some (newIndexKey o k' g)) (newIndexKey o L gen) v, d)) \/
  ((forall k', has b o k' -> knum o k < knum o k' -> (forall x, has b o x -> knum o k < knum o x -> knum o k' <= knum o x) ->
      forall v, ~ stored b o k' g v) /\
   Range_Next b (mkRange (Some (newIndexKey o k g)) (newIndexKey o L gen) v0) = Ok (mkRange None (newIndexKey o L gen) [], nil_data)).
Proof.
  intros Hk Hg HkL. unfold Range_Next; cbn [r_key r_end]. rewrite findNext_key by assumption.
  pose proof (nextKey_spec k Hk) as HS. destruct (nextKey k) as [[o' k']|] eqn:EN.
  - pose proof (nextKey_wf k o' k' Hk EN) as Hk'.
    destruct HS as [(-> & Hhas & Hlt & Hmin)|(Hlt & Hall & N & HNin & HNo & HNk & HNmin)].
    + destruct (get b (newIndexKey o k' g)) as [v|] eqn:G.
      * left. apply get_In in G; [|exact W]. destruct (ND k' g v Hk' Hg G) as [d Hd].
        exists k', v, d. rewrite Hd. cbn [rbind]. split; [assumption|]. split; [assumption|]. split; [reflexivity|]. do 3 (split; [assumption|]). reflexivity.
      * right. split; [|reflexivity]. intros k'' Hh Hlt' Hm v Hst.
        assert (knum o k' = knum o k'') by (specialize (Hmin k'' Hh Hlt'); specialize (Hm k' Hhas Hlt); lia).
        apply knum_inj in H as [_ H]; [|assumption|assumption|assumption|apply Hh]. subst k''.
        rewrite get_None in G. exact (G v Hst).
    + right. assert (G : get b (newIndexKey o k' g) = None).
      { apply get_None. intros v Hst. rewrite <- HNk in Hst. rewrite <- HNo in Hlt. 
        destruct NA as [NA'|(x & Hx & HLx)]; [exact (NA' N HNin Hlt HNmin g v Hg Hst)|].
        apply (key_lt_knum o) in HLx; [|exact HL|apply Hx]. specialize (Hall x Hx). lia. }
      rewrite G. split; [|reflexivity]. intros k'' Hh Hlt' _ v Hst. specialize (Hall k'' Hh). lia.
  - right. split; [|reflexivity]. intros k'' Hh Hlt' _ v Hst. specialize (HS k'' Hh). lia.
Qed.

Definition klts : Key -> Key -> Prop := fun x y => knum o x < knum o y.
Lemma fold_loop {S} (body : Range -> slice -> S -> Res (S * bool)) ks : forall k g v d s fuel,
  wf_Key k -> is_u64 g -> (g <= gen \/ forall x, In x (k :: ks) -> x <> L) ->
  StronglySorted klts (k :: ks) ->
  (forall x, In x (k :: ks) -> has b o x /\ knum o x <= knum o L) ->
  (forall x, has b o x -> knum o k < knum o x -> knum o x <= knum o L -> In x ks) ->
  stored b o k g v -> valueData v = Ok d ->
  (length ks + 1 < fuel)%nat ->
  range_loop fuel b (mkRange (Some (newIndexKey o k g)) (newIndexKey o L gen) v) d body s
  = fold_range body (newIndexKey o L gen) (yields b o g (k :: ks)) s.
Proof.
  induction ks as [|k' ks IH]; intros k g v d s fuel Hk Hg Hgg Hs Hall Hcomp Hst Hd Hfuel.
  - destruct fuel as [|fuel]; [lia|]. cbn [range_loop].
    destruct (Hall k (or_introl eq_refl)) as [_ HkL].
    assert (HN : HasNext (mkRange (Some (newIndexKey o k g)) (newIndexKey o L gen) v) = true).
    { rewrite HasNext_num by assumption. apply Z.leb_le. destruct Hgg as [Hgg|Hgg]; [lia|].
      assert (knum o k <> knum o L). { intros E. apply knum_inj in E as [_ E]; try assumption. exact (Hgg k (or_introl eq_refl) E). }
      unfold is_u64 in *. lia. }
    rewrite HN.
    assert (HY : yields b o g [k] = [(newIndexKey o k g, v)]).
    { cbn [yields]. apply get_In in Hst; [|exact W]. rewrite Hst. reflexivity. }
    rewrite HY. cbn [fold_range]. rewrite Hd. cbn [rbind].
    destruct (body _ _ _) as [[s' brk]| |]; cbn [rbind]; try reflexivity. destruct brk; [reflexivity|].
    destruct (step k g v Hk Hg HkL) as [(k' & v' & d' & Hk' & Hst' & Hd' & Hh' & Hlt & Hmin & ->)|[_ ->]]; cbn [rbind].
    + destruct fuel as [|fuel]; [cbn in Hfuel; lia|]. cbn [range_loop]. rewrite HasNext_num by assumption.
      assert (knum o L < knum o k').
      { destruct (Z_lt_dec (knum o L) (knum o k')); [assumption|]. destruct (Hcomp k' Hh' Hlt ltac:(lia)). }
      replace (knum o k' * 2 ^ 64 + g <=? knum o L * 2 ^ 64 + gen) with false; [reflexivity|].
      symmetry. apply Z.leb_gt. unfold is_u64 in *. lia.
    + destruct fuel as [|fuel]; [cbn in Hfuel; lia|]. reflexivity.
  - destruct fuel as [|fuel]; [lia|]. cbn [range_loop].
    destruct (Hall k (or_introl eq_refl)) as [_ HkL].
    assert (HN : HasNext (mkRange (Some (newIndexKey o k g)) (newIndexKey o L gen) v) = true).
    { rewrite HasNext_num by assumption. apply Z.leb_le. destruct Hgg as [Hgg|Hgg]; [lia|].
      assert (knum o k <> knum o L). { intros E. apply knum_inj in E as [_ E]; try assumption. exact (Hgg k (or_introl eq_refl) E). }
      unfold is_u64 in *. lia. }
    rewrite HN.
    assert (HY : yields b o g (k :: k' :: ks) = (newIndexKey o k g, v) :: yields b o g (k' :: ks)).
    { cbn [yields]. apply get_In in Hst; [|exact W]. rewrite Hst. reflexivity. }
    rewrite HY. cbn [fold_range]. rewrite Hd. cbn [rbind].
    destruct (body _ _ _) as [[s' brk]| |]; cbn [rbind]; try reflexivity. destruct brk; [reflexivity|].
    pose proof (StronglySorted_inv Hs) as [Hs' Hfa]. rewrite Forall_forall in Hfa.
    destruct (Hall k' (or_intror (or_introl eq_refl))) as [Hh' Hk'L].
    assert (Hlt' : knum o k < knum o k') by (apply Hfa; left; reflexivity).
    assert (Hmin' : forall x, has b o x -> knum o k < knum o x -> knum o k' <= knum o x).
    { intros x Hx Hlt. destruct (Z_le_dec (knum o x) (knum o L)) as [Hle|]; [|lia].
      destruct (Hcomp x Hx Hlt Hle) as [->|Hin]; [lia|]. pose proof (StronglySorted_inv Hs') as [_ Hfa']. rewrite Forall_forall in Hfa'.
      specialize (Hfa' x Hin). unfold klts in Hfa'. lia. }
    destruct (step k g v Hk Hg HkL) as [(k2 & v' & d' & Hk2 & Hst' & Hd' & Hh2 & Hlt & Hmin & ->)|[Hno ->]]; cbn [rbind].
    + assert (k2 = k').
      { assert (E : knum o k2 = knum o k') by (specialize (Hmin k' Hh' Hlt'); specialize (Hmin' k2 Hh2 Hlt); lia).
        apply knum_inj in E as [_ E]; try assumption. apply Hh'. }
      subst k2. apply IH; try assumption.
      * destruct Hgg as [?|Hgg]; [left; assumption|right]. intros x Hx. apply Hgg. right; exact Hx.
      * intros x Hx. apply Hall. right; exact Hx.
      * intros x Hx Hl Hle. assert (Hi : In x (k' :: ks)) by (apply Hcomp; [exact Hx|lia|exact Hle]). destruct Hi as [->|Hi]; [lia|exact Hi].
      * cbn [length] in Hfuel. lia.
    + assert (HY2 : yields b o g (k' :: ks) = []).
      { cbn [yields]. destruct (get b (newIndexKey o k' g)) as [v'|] eqn:G; [|reflexivity]. exfalso.
        apply get_In in G; [|exact W]. exact (Hno k' Hh' Hlt' Hmin' v' G). }
      rewrite HY2. destruct fuel as [|fuel]; [cbn in Hfuel; lia|]. reflexivity.
Qed.
End Rng.

(** ** the FS keys an index holds for an owner, in order *)
Definition keys_of (b : bucket) (o : Z) (lo hi : Key) (ks : list Key) : Prop :=
  StronglySorted (fun x y => knum o x < knum o y) ks /\
  forall k, In k ks <-> has b o k /\ knum o lo <= knum o k /\ knum o k <= knum o hi.
(** such a list exists *)
Lemma keys_of_exists b o lo hi : wf_bucket b -> is_u64 o ->
  exists ks, keys_of b o lo hi ks /\ (length ks <= length b)%nat.
Proof.
  intros W Ho. induction b as [|e b IH].
  - exists []. split; [|cbn; lia]. split; [constructor|]. intros k; split; [intros []|]. intros ((_ & g & v & _ & []) & _).
  - destruct (IH (wf_cons _ _ W)) as (ks & [Hs Hin] & Hlen).
    destruct (en_knum (e :: b) e W (or_introl eq_refl)) as (Ee & Weo & Wek & Weg & Hst).
    assert (Hmono : forall k, has b o k -> has (e :: b) o k).
    { intros k (H & g & v & Hg & Hs'). split; [exact H|]. exists g, v. split; [exact Hg|right; exact Hs']. }
    assert (Hsplit : forall k, has (e :: b) o k -> has b o k \/ (ik_Owner (fst e) = o /\ ik_Key (fst e) = k)).
    { intros k (H & g & v & Hg & [Hs'|Hs']).
      - right. rewrite Hs'. cbn [fst]. destruct (ik_built o k g) as (A & _ & _ & _ & _ & B); [unfold wf_tuple; auto|]. split; assumption.
      - left. split; [exact H|eauto]. }
    set (k0 := ik_Key (fst e)) in *.
    destruct (Z.eq_dec (ik_Owner (fst e)) o) as [Eo|Eo].
    2:{ exists ks. split; [|cbn; lia]. split; [exact Hs|]. intros k. rewrite Hin. split; [intros (H & R); split; [apply Hmono; exact H|exact R]|].
        intros (H & R). split; [|exact R]. apply Hsplit in H as [H|[H _]]; [exact H|contradiction]. }
    destruct (Z_le_dec (knum o lo) (knum o k0)) as [H1|H1]; [destruct (Z_le_dec (knum o k0) (knum o hi)) as [H2|H2]|].
    2,3: exists ks; (split; [|cbn; lia]); (split; [exact Hs|]); intros k; rewrite Hin; (split; [intros (H & R); split; [apply Hmono; exact H|exact R]|]);
      intros (H & R); (split; [|exact R]); apply Hsplit in H as [H|[_ H]]; [exact H|subst k; lia].
    (* k0 in range: is it the head already? *)
    assert (Hh0 : has (e :: b) o k0) by (split; [exact Wek|]; exists (ik_Generation (fst e)), (snd e); split; [exact Weg|]; rewrite <- Eo; exact Hst).
    assert (Hall : forall k, In k ks -> knum o k0 <= knum o k).
    { intros k Hk. apply Hin in Hk as ((Hwf & g & v & Hg & Hs') & _).
      pose proof (sorted_lt _ _ W _ Hs') as Hlt. rewrite (en_stored b) in Hlt by (try assumption; exact (wf_cons _ _ W)).
      rewrite Ee, Eo in Hlt. unfold is_u64 in *. lia. }
    destruct ks as [|k1 ks].
    + exists [k0]. split; [|cbn; lia]. split; [repeat constructor|]. intros k. split.
      * intros [<-|[]]. split; [exact Hh0|split; assumption].
      * intros (H & R). apply Hsplit in H as [H|[_ H]]; [|left; exact H]. assert (In k []) by (apply Hin; split; assumption). destruct H0.
    + destruct (Z.eq_dec (knum o k0) (knum o k1)) as [E|E].
      * assert (k0 = k1).
        { apply knum_inj in E as [_ E]; try assumption. destruct (proj1 (Hin k1) (or_introl eq_refl)) as [[H _] _]. exact H. }
        exists (k1 :: ks). split; [|cbn [length] in *; lia]. split; [exact Hs|]. intros k. rewrite Hin. split; [intros (H' & R); split; [apply Hmono; exact H'|exact R]|].
        intros (H' & R). split; [|exact R]. apply Hsplit in H' as [H'|[_ H']]; [exact H'|]. rewrite <- H', H. exact (proj1 (proj1 (Hin k1) (or_introl eq_refl))).
      * exists (k0 :: k1 :: ks). split; [|cbn [length] in *; lia]. split.
        -- constructor; [exact Hs|]. rewrite Forall_forall. intros k Hk. pose proof (Hall k Hk).
           assert (knum o k1 <= knum o k).
           { destruct Hk as [<-|Hk]; [lia|]. apply StronglySorted_inv in Hs as [_ Hf]. rewrite Forall_forall in Hf. specialize (Hf k Hk). cbn beta in Hf. lia. }
           pose proof (Hall k1 (or_introl eq_refl)). lia.
        -- intros k. split.
           ++ intros [<-|Hk]; [split; [exact Hh0|split; assumption]|]. apply Hin in Hk as (H' & R). split; [apply Hmono; exact H'|exact R].
           ++ intros (H' & R). apply Hsplit in H' as [H'|[_ H']]; [right; apply Hin; split; assumption|left; exact H'].
Qed.

Lemma key_le_knum o x y : wf_Key x -> wf_Key y -> (key_le x y <-> knum o x <= knum o y).
Proof.
  intros Hx Hy. unfold key_le. rewrite (key_lt_knum o) by assumption. split.
  - intros [->|]; lia.
  - intros H. destruct (Z.eq_dec (knum o x) (knum o y)) as [E|E]; [left|right; lia].
    destruct x as [a1 a2 a3], y as [b1 b2 b3]. destruct Hx as (H1 & H2 & H3), Hy as (H1' & H2' & H3').
    unfold knum, is_u64, is_u8 in *; cbn [ObjectID KType KOffset] in *. f_equal; lia.
Qed.
Lemma keys_between_of b o lo hi ks : wf_Key lo -> wf_Key hi -> (keys_between b o lo hi ks <-> keys_of b o lo hi ks).
Proof.
  intros Hl Hh. unfold keys_between, keys_of.
  assert (P : forall k, (present b o k /\ key_le lo k /\ key_le k hi) <-> (present b o k /\ knum o lo <= knum o k /\ knum o k <= knum o hi)).
  { intros k. split; intros (A & B & C); (split; [exact A|]); destruct A as [A _]; split; try (apply key_le_knum; assumption); apply (key_le_knum o); assumption. }
  split; intros [A B]; (split; [|intros k; rewrite B; [apply P || (symmetry; apply P)]]).
  - assert (Hp : forall k, In k ks -> wf_Key k) by (intros k Hk; apply B in Hk; apply Hk).
    clear B. induction A as [|x l A IH F]; [constructor|]. constructor; [apply IH; intros k Hk; apply Hp; right; exact Hk|].
    rewrite Forall_forall in *. intros y Hy. apply key_lt_knum; [apply Hp; left; reflexivity|apply Hp; right; exact Hy|apply F; exact Hy].
  - assert (Hp : forall k, In k ks -> wf_Key k) by (intros k Hk; apply B in Hk; apply Hk).
    clear B. induction A as [|x l A IH F]; [constructor|]. constructor; [apply IH; intros k Hk; apply Hp; right; exact Hk|].
    rewrite Forall_forall in *. intros y Hy. apply (key_lt_knum o); [apply Hp; left; reflexivity|apply Hp; right; exact Hy|apply F; exact Hy].
Qed.
Lemma keys_between_exists b o lo hi : wf_bucket b -> is_u64 o -> wf_Key lo -> wf_Key hi ->
  exists ks, keys_between b o lo hi ks /\ (length ks <= length b)%nat.
Proof.
  intros W Ho Hl Hh. destruct (keys_of_exists b o lo hi W Ho) as (ks & H & HL). exists ks. split; [|exact HL].
  apply keys_between_of; assumption.
Qed.
Lemma keys_length b o lo hi ks : wf_bucket b -> is_u64 o -> wf_Key lo -> wf_Key hi -> keys_between b o lo hi ks -> (length ks <= length b)%nat.
Proof.
  intros W Ho Hl Hh [Hs Hin]. destruct (keys_between_exists b o lo hi W Ho Hl Hh) as (ks' & [Hs' Hin'] & HL).
  apply Nat.le_trans with (length ks'); [|exact HL]. apply NoDup_incl_length.
  - clear -Hs. induction Hs as [|x l Hs IH F]; constructor; [|exact IH]. intros H. rewrite Forall_forall in F. specialize (F x H). unfold key_lt in F. lia.
  - intros k Hk. apply Hin'. apply Hin. exact Hk.
Qed.

(** ** find, from the specification *)
Lemma wf_KL0 : wf_Key KL0.
Proof. unfold wf_Key, KL0, LastFreeObjectID, is_u64, is_u8, max64; cbn; lia. Qed.
Lemma metadataKey_num : be_decode metadataKey = num max64 KL0 max64.
Proof. unfold metadataKey. apply newIndexKey_num. split; [exact max64_u64|split; [exact wf_KL0|exact max64_u64]]. Qed.
Lemma find_selected b o k gen : opened b -> wf_tuple o k gen ->
  ~ (o = max64 /\ KType k = 255 /\ LastFreeObjectID < ObjectID k) ->
  (exists g v, find b o k gen = Ok (Some (newIndexKey o k g, v)) /\ selected_version b o k gen g v) \/
  (find b o k gen = Ok None /\ ~ present b o k).
Proof.
  intros [W [m Hm]] WT Hno. pose proof (find_spec b o k gen W WT) as H. pose proof WT as (Ho & Hk & Hg).
  destruct (find b o k gen) as [[[fk v]|]| |].
  - left. destruct H as (g & -> & Hg' & Hst & Hsel). exists g, v. split; [reflexivity|]. split; [exact Hst|]. split; [exact Hg'|]. exact Hsel.
  - right. split; [reflexivity|]. intros (_ & g & v & Hg' & Hst). destruct H as [H _]. exact (H g v Hg' Hst).
  - exfalso. specialize (H _ Hm). unfold en in H; cbn [fst] in H. rewrite metadataKey_num in H.
    destruct Hk as (H1 & H2 & H3). unfold num, knum, KL0, LastFreeObjectID, max64, is_u64, is_u8 in *. cbn [ObjectID KType KOffset] in H. lia.
  - destruct H.
Qed.

(** ** the start of a range *)
Lemma wf_first0 k : wf_Key k -> wf_Key (mkKey (ObjectID k) (KType k) 0).
Proof. intros (H1 & H2 & H3). unfold wf_Key, is_u64, is_u8 in *; cbn; lia. Qed.
Definition group_first (b : bucket) (o : Z) (first k : Key) : Prop :=
  present b o k /\ KType k = KType first /\ ObjectID k = ObjectID first /\
  forall k', present b o k' -> KType k' = KType first -> ObjectID k' = ObjectID first -> KOffset k <= KOffset k'.
Definition group_empty (b : bucket) (o : Z) (first : Key) : Prop :=
  forall k', present b o k' -> KType k' = KType first -> ObjectID k' = ObjectID first -> False.
Lemma range_start b gen o first last : opened b -> is_u64 o -> o < max64 -> wf_Key first -> is_u64 gen -> data_ok b o ->
  (exists k g v d, mkRangeFrom b gen o first last = Ok (mkRange (Some (newIndexKey o k g)) (newIndexKey o last gen) v, d) /\
     wf_Key k /\ is_u64 g /\ stored b o k g v /\ valueData v = Ok d /\ selected_version b o k gen g v /\
     (group_first b o first k \/ (group_empty b o first /\ k = KL0))) \/
  (group_empty b o first /\ mkRangeFrom b gen o first last = Ok (mkRange None (newIndexKey o last gen) [], nil_data)).
Proof.
  intros Op Ho Hom Hf Hgen ND. pose proof Op as [W _].
  assert (WT0 : wf_tuple o first 0) by (split; [exact Ho|split; [exact Hf|unfold is_u64; lia]]).
  unfold mkRangeFrom. pose proof (lowerBound_spec b o first gen W WT0) as HB. cbv zeta in HB.
  set (K := lowerBound b o first gen 17) in *.
  assert (HB' : wf_Key K /\ (group_first b o first K \/ (group_empty b o first /\ K = KL0))).
  { destruct HB as [(g & v & Hg & HK & Hst & HT & HI & Hmin)|[HK Hno]].
    - split; [exact HK|]. left. split; [split; [exact HK|eauto]|]. split; [exact HT|]. split; [exact HI|].
      intros [i t f] ((H1 & H2 & H3) & g' & v' & Hg' & Hst') HT' HI'. cbn [KType ObjectID KOffset] in *. subst. apply (Hmin f g' v'); assumption.
    - split; [rewrite HK; exact wf_KL0|]. right. split; [|exact HK].
      intros [i t f] ((H1 & H2 & H3) & g' & v' & Hg' & Hst') HT' HI'. cbn [KType ObjectID KOffset] in *. subst. apply (Hno f g' v'); assumption. }
  destruct HB' as [HK HB']. clearbody K.
  destruct (find_selected b o K gen Op) as [(g & v & Hfind & Hsel)|[Hfind Hno]].
  - unfold wf_tuple; auto.
  - unfold max64 in *. lia.
  - left. destruct Hsel as (Hst & Hg & Hsel). destruct (ND K g v HK Hg Hst) as [d Hd].
    exists K, g, v, d. rewrite Hfind. cbn [rbind]. rewrite Hd. cbn [rbind].
    split; [reflexivity|]. split; [exact HK|]. split; [exact Hg|]. split; [exact Hst|]. split; [reflexivity|].
    split; [split; [exact Hst|split; [exact Hg|exact Hsel]]|exact HB'].
  - right. rewrite Hfind. cbn [rbind]. split; [|reflexivity]. destruct HB' as [HB'|HB']; [exfalso; apply Hno; apply HB'|apply HB'].
Qed.

(** ** the whole iteration *)
(** keys from the first offset of first's object up to last, all yielded while
    they have the generation of the first one *)
Lemma range_exact {S} b gen o first last fuel ks (body : Range -> slice -> S -> Res (S * bool)) s : opened b -> is_u64 o -> o < max64 -> wf_Key first -> wf_Key last -> is_u64 gen ->
  data_ok b o -> no_max_gen b o -> no_wrap b o last ->
  (gen = max64 \/ ~ present b o last) ->
  keys_between b o (mkKey (ObjectID first) (KType first) 0) last ks ->
  (length b + 1 < fuel)%nat ->
  match ks with
  | [] => key_lt last KL0 -> range_for fuel b (mkRangeFrom b gen o first last) body s = Ok s
  | k :: _ =>
      if (KType k =? KType first) && (ObjectID k =? ObjectID first)
      then exists g v, selected_version b o k gen g v /\ range_for fuel b (mkRangeFrom b gen o first last) body s = fold_range body (newIndexKey o last gen) (yields b o g ks) s
      else key_lt last KL0 -> range_for fuel b (mkRangeFrom b gen o first last) body s = Ok s
  end.
Proof.
  intros Op Ho Hom Hf Hl Hgen ND NM NA Hlast KB Hfuel.
  pose proof Op as [W _]. pose proof (wf_first0 first Hf) as Hf0.
  assert (Hlen := keys_length b o _ last ks W Ho Hf0 Hl KB).
  apply keys_between_of in KB; try assumption. destruct KB as [KS KI].
  set (f0 := mkKey (ObjectID first) (KType first) 0) in *.
  assert (Empty : group_empty b o first -> key_lt last KL0 -> range_for fuel b (mkRangeFrom b gen o first last) body s = Ok s).
  { intros HE HL0. unfold range_for.
    destruct (range_start b gen o first last Op Ho Hom Hf Hgen ND) as [(k & g & v & d & -> & Hk & Hg & Hst & Hd & Hsel & Hgrp)|[_ ->]]; cbn [rbind].
    - destruct Hgrp as [Hgrp|[_ ->]]; [exfalso; destruct Hgrp as (A & B & C & _); exact (HE k A B C)|].
      destruct fuel as [|fuel]; [lia|]. cbn [range_loop]. rewrite HasNext_num by assumption.
      apply (key_lt_knum o) in HL0; [|assumption|exact wf_KL0].
      replace (knum o KL0 * 2 ^ 64 + g <=? knum o last * 2 ^ 64 + gen) with false; [reflexivity|].
      symmetry; apply Z.leb_gt. unfold is_u64 in *. lia.
    - destruct fuel as [|fuel]; [lia|]. reflexivity. }
  assert (InGroup : forall k, present b o k -> KType k = KType first -> ObjectID k = ObjectID first -> knum o f0 <= knum o k).
  { intros k ((H1 & H2 & H3) & _) HT HI. unfold knum, f0; cbn [ObjectID KType KOffset]. rewrite HT, HI. unfold is_u64 in *. lia. }
  assert (FirstIn : forall k0 k, In k0 ks -> group_first b o first k -> (forall x, In x ks -> knum o k0 <= knum o x) ->
            knum o k <= knum o last -> KType k0 = KType first -> ObjectID k0 = ObjectID first -> k = k0).
  { intros k0 k Hk0 (Hp & HT & HI & Hmin) Hk0min Hle HT0 HI0. pose proof (proj1 (KI k0) Hk0) as (Hp0 & _).
    specialize (Hmin k0 Hp0 HT0 HI0). specialize (Hk0min k). rewrite KI in Hk0min.
    specialize (Hk0min (conj Hp (conj (InGroup k Hp HT HI) Hle))).
    assert (E : knum o k = knum o k0).
    { unfold knum in *. rewrite HT, HI, HT0, HI0 in *. lia. }
    apply knum_inj in E as [_ E]; try assumption; [apply Hp|apply Hp0]. }
  assert (GroupAfter : forall k, group_first b o first k -> knum o last < knum o k -> 
           range_for fuel b (mkRangeFrom b gen o first last) body s = Ok s).
  { intros k1 HG1 Hgt. unfold range_for.
    destruct (range_start b gen o first last Op Ho Hom Hf Hgen ND) as [(k & g & v & d & -> & Hk & Hg & Hst & Hd & Hsel & Hgrp)|[HE _]]; cbn [rbind].
    - destruct Hgrp as [Hgrp|[HE _]]; [|exfalso; destruct HG1 as (A & B & C & _); exact (HE k1 A B C)].
      assert (k = k1).
      { destruct Hgrp as (A & B & C & D), HG1 as (A1 & B1 & C1 & D1). specialize (D k1 A1 B1 C1). specialize (D1 k A B C).
        destruct k as [x1 x2 x3], k1 as [y1 y2 y3]; cbn [ObjectID KType KOffset] in *. f_equal; [congruence|congruence|lia]. }
      subst k1. destruct fuel as [|fuel]; [lia|]. cbn [range_loop]. rewrite HasNext_num by assumption.
      replace (knum o k * 2 ^ 64 + g <=? knum o last * 2 ^ 64 + gen) with false; [reflexivity|].
      symmetry; apply Z.leb_gt. unfold is_u64 in *. lia.
    - exfalso. destruct HG1 as (A & B & C & _). exact (HE k1 A B C). }
  assert (Cases : group_empty b o first \/ exists k, group_first b o first k).
  { destruct (range_start b gen o first last Op Ho Hom Hf Hgen ND) as [(k & g & v & d & _ & _ & _ & _ & _ & _ & [H|[H _]])|[H _]]; eauto. }
  assert (HeadMin : forall k0 r, ks = k0 :: r -> forall x, In x ks -> knum o k0 <= knum o x).
  { intros k0 r -> x [<-|Hx]; [lia|]. apply StronglySorted_inv in KS as [_ HF]. rewrite Forall_forall in HF. specialize (HF x Hx). cbn beta in HF. lia. }
  assert (NotHead : forall k, group_first b o first k -> knum o k <= knum o last ->
       exists r, ks = k :: r).
  { intros k HG Hle. destruct HG as (Hp & HT & HI & Hmin).
    assert (Hin : In k ks) by (apply KI; split; [exact Hp|split; [apply InGroup; assumption|exact Hle]]).
    destruct ks as [|k0 r]; [destruct Hin|]. pose proof (HeadMin k0 r eq_refl k Hin) as Hm.
    destruct (proj1 (KI k0) (or_introl eq_refl)) as (Hp0 & Hlo & _).
    assert (HT0 : KType k0 = KType first /\ ObjectID k0 = ObjectID first).
    { destruct Hp0 as ((A1 & A2 & A3) & _), Hp as ((B1 & B2 & B3) & _). destruct Hf as (C1 & C2 & C3).
      unfold knum, f0 in Hm, Hlo. cbn [ObjectID KType KOffset] in Hm, Hlo. rewrite HT, HI in Hm. unfold is_u64, is_u8 in *. lia. }
    exists r. f_equal. symmetry. apply (FirstIn k0 k (or_introl eq_refl)); try (apply HT0); try assumption.
    - split; [exact Hp|split; [exact HT|split; [exact HI|exact Hmin]]].
    - exact (HeadMin k0 r eq_refl). }
  destruct ks as [|k0 ks].
  - intros HL0. destruct Cases as [HE|[k HG]]; [exact (Empty HE HL0)|].
    destruct (Z_le_dec (knum o k) (knum o last)) as [Hle|Hgt].
    + destruct (NotHead k HG Hle) as [r Hr]. discriminate.
    + apply (GroupAfter k HG). lia.
  - destruct ((KType k0 =? KType first) && (ObjectID k0 =? ObjectID first)) eqn:EB.
    + apply andb_true_iff in EB as [EB1 EB2]. apply Z.eqb_eq in EB1, EB2.
      destruct (proj1 (KI k0) (or_introl eq_refl)) as (Hp0 & Hlo0 & Hhi0).
      unfold range_for.
      destruct (range_start b gen o first last Op Ho Hom Hf Hgen ND) as [(k & g & v & d & -> & Hk & Hg & Hst & Hd & Hsel & Hgrp)|[HE _]]; cbn [rbind].
      2:{ exfalso. exact (HE k0 Hp0 EB1 EB2). }
      destruct Hgrp as [Hgrp|[HE _]]; [|exfalso; exact (HE k0 Hp0 EB1 EB2)].
      assert (Hle : knum o k <= knum o last).
      { destruct Hgrp as (A & B & C & D). specialize (D k0 Hp0 EB1 EB2). unfold knum in *. rewrite B, C, EB1, EB2 in *. lia. }
      assert (k = k0) by (apply (FirstIn k0 k (or_introl eq_refl) Hgrp (HeadMin k0 ks eq_refl) Hle EB1 EB2)). subst k0.
      exists g, v. split; [exact Hsel|].
      apply fold_loop; try assumption.
      * destruct Hlast as [->|Hnp]; [left; unfold is_u64, max64 in *; lia|right].
        intros x Hx ->. apply Hnp. apply KI in Hx. apply Hx.
      * intros x Hx. apply KI in Hx as (A & B & C). split; assumption.
      * intros x Hx Hlt Hle'. assert (Hi : In x (k :: ks)) by (apply KI; split; [exact Hx|split; [lia|exact Hle']]).
        destruct Hi as [->|Hi]; [lia|exact Hi].
      * cbn [length] in Hlen. lia.
    + intros HL0. destruct Cases as [HE|[k HG]]; [exact (Empty HE HL0)|].
      destruct (Z_le_dec (knum o k) (knum o last)) as [Hle|Hgt]; [|apply (GroupAfter k HG); lia].
      destruct (NotHead k HG Hle) as [r Hr]. injection Hr as -> ->. exfalso.
      destruct HG as (_ & A & B & _). rewrite A, B, !Z.eqb_refl in EB. discriminate.
Qed.

(** ** termination for every loop body that does not itself abort *)
Lemma range_terminates_from {S} b o last gen (body : Range -> slice -> S -> Res (S * bool)) :
  wf_bucket b -> is_u64 o -> wf_Key last -> is_u64 gen -> data_ok b o -> no_max_gen b o -> no_wrap b o last ->
  (forall r d s, r_key r <> None -> exists x, body r d s = Ok x) ->
  forall ks k g v d s fuel, wf_Key k -> is_u64 g ->
  StronglySorted (fun x y => knum o x < knum o y) ks -> (forall x, In x ks -> present b o x) ->
  (forall x, present b o x -> knum o k < knum o x -> In x ks) -> (forall x, In x ks -> knum o k < knum o x) ->
  (length ks + 1 < fuel)%nat ->
  exists s', range_loop fuel b (mkRange (Some (newIndexKey o k g)) (newIndexKey o last gen) v) d body s = Ok s'.
Proof.
  intros W Ho Hl Hgen ND NM NA HB. induction ks as [|k' ks IH]; intros k g v d s fuel Hk Hg Hs Hp Hc Hlt Hfuel.
  - destruct fuel as [|fuel]; [lia|]. cbn [range_loop]. destruct (HasNext _) eqn:HN; [|eauto].
    assert (HkL : knum o k <= knum o last).
    { rewrite HasNext_num in HN by assumption. apply Z.leb_le in HN. unfold is_u64 in *. lia. }
    destruct (HB (mkRange (Some (newIndexKey o k g)) (newIndexKey o last gen) v) d s) as [[s' brk] HB']; [discriminate|]. rewrite HB'. cbn [rbind].
    destruct brk; [eauto|].
    destruct (step b o W Ho NM last gen Hl NA ND k g v Hk Hg HkL) as [(k' & v' & d' & Hk' & Hst' & Hd' & Hh' & Hlt' & Hmin & ->)|[_ ->]]; cbn [rbind].
    + destruct (Hc k' Hh' Hlt').
    + destruct fuel as [|fuel]; [cbn in Hfuel; lia|]. cbn. eauto.
  - destruct fuel as [|fuel]; [lia|]. cbn [range_loop]. destruct (HasNext _) eqn:HN; [|eauto].
    assert (HkL : knum o k <= knum o last).
    { rewrite HasNext_num in HN by assumption. apply Z.leb_le in HN. unfold is_u64 in *. lia. }
    destruct (HB (mkRange (Some (newIndexKey o k g)) (newIndexKey o last gen) v) d s) as [[s' brk] HB']; [discriminate|]. rewrite HB'. cbn [rbind].
    destruct brk; [eauto|].
    pose proof (StronglySorted_inv Hs) as [Hs' HF]. rewrite Forall_forall in HF.
    destruct (step b o W Ho NM last gen Hl NA ND k g v Hk Hg HkL) as [(k2 & v' & d' & Hk2 & Hst' & Hd' & Hh2 & Hlt2 & Hmin & ->)|[_ ->]]; cbn [rbind].
    + assert (k2 = k').
      { destruct (Hc k2 Hh2 Hlt2) as [->|Hin]; [reflexivity|]. specialize (HF k2 Hin). cbn beta in HF.
        specialize (Hmin k' (Hp k' (or_introl eq_refl)) (Hlt k' (or_introl eq_refl))). lia. }
      subst k2. apply IH; try assumption.
      * intros x Hx. apply Hp. right; exact Hx.
      * intros x Hx Hlx. assert (Hi : In x (k' :: ks)) by (apply Hc; [exact Hx|lia]). destruct Hi as [->|Hi]; [lia|exact Hi].
      * cbn [length] in Hfuel. lia.
    + destruct fuel as [|fuel]; [cbn in Hfuel; lia|]. cbn. eauto.
Qed.
Lemma range_terminates {S} b gen o first last (body : Range -> slice -> S -> Res (S * bool)) s fuel :
  opened b -> is_u64 o -> o < max64 -> wf_Key first -> wf_Key last -> is_u64 gen ->
  data_ok b o -> no_max_gen b o -> no_wrap b o last ->
  (forall r d s, r_key r <> None -> exists x, body r d s = Ok x) ->
  (length b + 1 < fuel)%nat ->
  exists s', range_for fuel b (mkRangeFrom b gen o first last) body s = Ok s'.
Proof.
  intros Op Ho Hom Hf Hl Hgen ND NM NA HB Hfuel. pose proof Op as [W _]. unfold range_for.
  destruct (range_start b gen o first last Op Ho Hom Hf Hgen ND) as [(k & g & v & d & -> & Hk & Hg & Hst & Hd & Hsel & Hgrp)|[HE ->]]; cbn [rbind].
  2:{ destruct fuel as [|fuel]; [lia|]. cbn. eauto. }
  destruct (keys_of_exists b o k (mkKey max64 255 max64) W Ho) as (ks & [KS KI] & HLen).
  assert (Hmaxk : forall x, wf_Key x -> knum o x <= knum o (mkKey max64 255 max64)).
  { intros x (H1 & H2 & H3). unfold knum, max64, is_u64, is_u8 in *; cbn [ObjectID KType KOffset]. lia. }
  assert (Hhas : present b o k) by (split; [exact Hk|eauto]).
  destruct ks as [|k0 ks].
  { exfalso. assert (In k []) by (apply KI; split; [exact Hhas|split; [lia|apply Hmaxk; exact Hk]]). destruct H. }
  pose proof (StronglySorted_inv KS) as [KS' HF]. rewrite Forall_forall in HF.
  assert (k0 = k).
  { assert (Hi : In k (k0 :: ks)) by (apply KI; split; [exact Hhas|split; [lia|apply Hmaxk; exact Hk]]).
    destruct Hi as [->|Hi]; [reflexivity|]. specialize (HF k Hi). cbn beta in HF.
    destruct (proj1 (KI k0) (or_introl eq_refl)) as (_ & Hlo & _). lia. }
  subst k0. apply (range_terminates_from b o last gen body W Ho Hl Hgen ND NM NA HB ks); try assumption.
  - intros x Hx. apply (KI x). right; exact Hx.
  - intros x Hx Hlt. assert (Hi : In x (k :: ks)) by (apply KI; split; [exact Hx|split; [lia|apply Hmaxk; apply Hx]]).
    destruct Hi as [->|Hi]; [lia|exact Hi].
  - cbn [length] in HLen. lia.
Qed.

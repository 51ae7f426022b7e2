(** What is left of a sound volume when items are missing from the index: still a tree, smaller. *)
From Verif Require Import Go GoProofs Layout KeyFmt Bolt Store ToString Fs Recover RecoverProofs SpecFs SpecContent PathProofs PropsRecoverFile PropsRecoverLink SpecTree PropsText SpecDamage TreeProofs TreeRun TreeFull TreeLegible TreeDamage PropsTree PropsDamage SpecLoss.
From Coq Require Import ZifyBool ZifyNat ZifyN Relations.
Ltac Zify.zify_post_hook ::= Z.div_mod_to_equations.

(** ** lists *)
Lemma part_In X (l' l : list X) : part_of l' l -> forall x, In x l' -> In x l.
Proof. induction 1 as [|y l' l H IH|y l' l H IH]; intros x Hx; [destruct Hx|destruct Hx as [->|Hx]; [left; reflexivity|right; exact (IH x Hx)]|right; exact (IH x Hx)]. Qed.
Lemma part_refl X (l : list X) : part_of l l.
Proof. induction l as [|x l IH]; [constructor|constructor; exact IH]. Qed.
Lemma part_nil X (l : list X) : part_of [] l.
Proof. induction l as [|x l IH]; [constructor|constructor; exact IH]. Qed.
Lemma part_app X (a' a b' b : list X) : part_of a' a -> part_of b' b -> part_of (a' ++ b') (a ++ b).
Proof. induction 1 as [|y l' l H IH|y l' l H IH]; intros Hb; [exact Hb|constructor; exact (IH Hb)|constructor; exact (IH Hb)]. Qed.
Lemma part_NoDup X (l' l : list X) : part_of l' l -> NoDup l -> NoDup l'.
Proof. induction 1 as [|y l' l H IH|y l' l H IH]; intros HN; inversion HN as [|? ? N1 N2]; subst; [constructor|constructor; [intros HI; apply N1; exact (part_In _ _ _ H _ HI)|exact (IH N2)]|exact (IH N2)]. Qed.
Lemma part_Forall2 X Y (P : X -> Y -> Prop) l' l : part_of l' l -> forall ys, Forall2 P l ys -> exists ys', Forall2 P l' ys' /\ part_of ys' ys.
Proof.
  induction 1 as [|y l' l H IH|y l' l H IH]; intros ys HF; inversion HF as [|? z ? zs F1 F2]; subst.
  - exists []. split; constructor.
  - destruct (IH _ F2) as (ys' & A & B). exists (z :: ys'). split; constructor; assumption.
  - destruct (IH _ F2) as (ys' & A & B). exists ys'. split; [exact A|constructor; exact B].
Qed.
Lemma part_Forall X (P : X -> Prop) l' l : part_of l' l -> Forall P l -> Forall P l'.
Proof. intros H HF. apply Forall_forall. intros x Hx. rewrite Forall_forall in HF. exact (HF x (part_In _ _ _ H x Hx)). Qed.

(** ** what is asked of the files and links of the smaller tree can always be had *)
Lemma usable_dec D x : {usable D x} + {~ usable D x}.
Proof.
  unfold usable. destruct (Z_lt_dec (ext_off x + ext_len x) (2^63)) as [H|H]; [|right; intros [H1 _]; exact (H H1)].
  destruct x as [o d|o n|o n src]; [left; auto|destruct (Z_le_dec n (2^48)) as [K|K]|destruct (Z_le_dec (src + n) (zlen D)) as [K|K]]; try (left; split; assumption); right; intros [_ H1]; exact (K H1).
Qed.
Lemma extent_fun q ke x y : is_extent q ke x -> is_extent q ke y -> x = y.
Proof.
  destruct ke as [k e]. unfold is_extent. intros Hx Kx.
  destruct Hx as [(d & HT & Hd & ->)|[(t & n & HT & HT0 & Hn & Hnr & ->)|(t & n & nr & id & phys & o & HT & HT0 & Hn & Hnr & Hnz & Hph & Hof & ->)]];
  destruct Kx as [(d' & KT & Kd & ->)|[(t' & n' & KT & KT0 & Kn & Knr & ->)|(t' & n' & nr' & id' & phys' & o' & KT & KT0 & Kn & Knr & Knz & Kph & Kof & ->)]]; try congruence.
  all: (assert (n' = n) by congruence; assert (nr' = nr) by congruence; subst; assert (phys' = phys) by congruence; assert (o' = o) by congruence; subst; reflexivity).
Qed.
Lemma extents_fun q l xs ys : Forall2 (is_extent q) l xs -> Forall2 (is_extent q) l ys -> xs = ys.
Proof. intros H. revert ys. induction H as [|ke x l xs Hx HX IH]; intros ys K; inversion K as [|? y ? ys2 Ky K2]; subst; [reflexivity|]. f_equal; [exact (extent_fun _ _ _ _ Hx Ky)|exact (IH _ K2)]. Qed.
Definition content_of (D : list byte) (xs : list extent) (n : Z) : list byte := map (fun j => file_byte D xs (Z.of_nat j)) (seq 0 (Z.to_nat n)).
Lemma content_len D xs n : 0 <= n -> zlen (content_of D xs n) = n.
Proof. intros H. unfold zlen, content_of. rewrite map_length, seq_length. lia. Qed.
Lemma content_byte D xs n j : 0 <= j < n -> byte_at (content_of D xs n) j = file_byte D xs j.
Proof.
  intros H. unfold byte_at, content_of. rewrite (nth_indep _ _ (file_byte D xs (Z.of_nat 0))) by (rewrite map_length, seq_length; lia).
  rewrite (map_nth (fun j => file_byte D xs (Z.of_nat j))). rewrite seq_nth by lia. f_equal. lia.
Qed.
Lemma listed_file q D o i : file_legible q o i -> exists c, ask_file (listed q D) o i c.
Proof.
  intros HL. pose proof HL as [(xs & H1 & H2) [H3 H4]].
  assert (G : (forall c', ~ file_shows q D o i c') -> exists c, ask_file (listed q D) o i c) by (intros HN; exists []; split; [exact HL|intros c' H; destruct (HN c' H)]).
  destruct H4 as [H4|(it & s & H4 & H5 & H6)]; [apply G; intros c' (xs' & it & _ & _ & _ & H & _); congruence|].
  destruct (Forall_dec (usable D) (usable_dec D) xs) as [HU|HU].
  - assert (Hs : 0 <= s) by exact (proj1 (PropsRecoverDfs.at64_range _ _ _ H5)).
    assert (HS : file_shows q D o i (content_of D xs s)).
    { exists xs, it. rewrite content_len by exact Hs. split; [exact H1|]. split; [exact HU|]. split; [exact H3|]. split; [exact H4|]. split; [exact H5|]. split; [exact H6|]. intros j Hj. apply content_byte. exact Hj. }
    exists (content_of D xs s). exact (shown_listed _ _ _ _ _ HS).
  - apply G. intros c' (xs' & it' & K1 & K2 & _). apply HU. rewrite (extents_fun _ _ _ _ H1 K1). exact K2.
Qed.

Lemma target_fun q D e t t' : is_target q D e t -> is_target q D e t' -> t = t'.
Proof.
  intros [(HT & Hd)|(ty & n & nr & id & phys & eo & HT & HT0 & Hn & Hnr & Hnz & Hp & Ho & Hl & ->)] [(KT & Kd)|(ty' & n' & nr' & id' & phys' & eo' & KT & KT0 & Kn & Knr & Knz & Kp & Ko & Kl & ->)]; try congruence.
  all: (assert (n' = n) by congruence; assert (nr' = nr) by congruence; subst; assert (phys' = phys) by congruence; assert (eo' = eo) by congruence; subst; reflexivity).
Qed.
Lemma listed_link q D o i : link_legible q o i -> exists t, ask_link (listed q D) o i t.
Proof.
  intros HL. assert (G : (forall t', ~ link_shows q D o i t') -> exists t, ask_link (listed q D) o i t) by (intros HN; exists []; split; [exact HL|intros t' H; destruct (HN t' H)]).
  assert (K : forall e t, q_extent0 q o i = Ok (Some e) -> is_target q D e t -> exists t, ask_link (listed q D) o i t).
  { intros e t He Ht. destruct (path_arg t) eqn:EP; [exists t; apply shown_listed_link; exists e; auto|]. apply G. intros t' (e' & A & B & C). assert (e' = e) by congruence. subst e'. pose proof (target_fun _ _ _ _ _ Ht B). congruence. }
  destruct HL as [HL|(e & ty & H1 & H2 & [(-> & d & H3)|[(H3 & H4)|(H3 & nr & n & eo & [id p] & H4 & H5 & H6 & H7 & H8)]])].
  - apply G. intros t' (e & A & _). congruence.
  - apply (K e d H1). left. auto.
  - apply G. intros t' (e' & A & [(B & _)|(ty' & n' & nr' & id' & phys' & o' & B1 & B2 & B3 & B4 & B5 & _)] & _); assert (e' = e) by congruence; subst; congruence.
  - set (t := firstn (Z.to_nat n) (skipn (Z.to_nat ((p + eo) mod 2^64)) D)). destruct (Z.eq_dec nr 0) as [->|Hz].
    + apply G. intros t' (e' & A & [(B & _)|(ty' & n' & nr' & id' & phys' & o' & B1 & B2 & B3 & B4 & B5 & _)] & _); assert (e' = e) by congruence; subst; congruence.
    + destruct (Z.eq_dec (zlen t) n) as [HZ|HZ].
      * apply (K e t H1). right. exists ty, n, nr, id, p, eo. auto 10.
      * apply G. intros t' (e' & A & [(B & _)|(ty' & n' & nr' & id' & phys' & o' & B1 & B2 & B3 & B4 & B5 & B6 & B7 & B8 & B9)] & _); assert (e' = e) by congruence; subst e'; [congruence|].
        apply HZ. assert (n' = n) by congruence. assert (nr' = nr) by congruence. subst n' nr'. assert (phys' = p) by congruence. assert (o' = eo) by congruence. subst phys' o'. assert (ET : t' = t) by (unfold t; rewrite <- H; exact B9). rewrite <- ET. exact H.
Qed.

(** ** the directories met on the way: every directory but the top one is named once *)
Lemma edge_item q k x : edge q k x <-> exists i di, In (i, di) (st_items (q_dirItems q (fst k) (snd k))) /\ names_dir (fst k) di x.
Proof. split; [intros ([i di] & H1 & H2); exists i, di; auto|intros (i & di & H1 & H2); exists (i, di); auto]. Qed.
Definition closed (q : queries) (ks : list (Z * Z)) : Prop := forall y x, In y ks -> edge q y x -> In x ks.
Definition unique (q : queries) (ks : list (Z * Z)) : Prop := forall y z x, In y ks -> In z ks -> edge q y x -> edge q z x -> y = z.
Definition no_parent (q : queries) (ks : list (Z * Z)) (x : Z * Z) : Prop := forall y, In y ks -> ~ edge q y x.
Lemma disjoint_app X (a b : list X) x : NoDup (a ++ b) -> In x a -> In x b -> False.
Proof. induction a as [|y a IH]; intros HN HA HB; [destruct HA|]. inversion HN as [|? ? N1 N2]; subst. destruct HA as [->|HA]; [apply N1, in_or_app; auto|auto]. Qed.
Lemma nodup_l X (a b : list X) : NoDup (a ++ b) -> NoDup a.
Proof. induction a as [|y a IH]; intros HN; [constructor|]. inversion HN as [|? ? N1 N2]; subst. constructor; [intros H; apply N1, in_or_app; auto|auto]. Qed.
Lemma nodup_r X (a b : list X) : NoDup (a ++ b) -> NoDup b.
Proof. induction a as [|y a IH]; intros HN; [exact HN|]. inversion HN; subst. auto. Qed.
Lemma forest_app q a b : NoDup (a ++ b) -> closed q a -> closed q b -> unique q a -> unique q b -> closed q (a ++ b) /\ unique q (a ++ b).
Proof.
  intros HN Ca Cb Ua Ub. split.
  - intros y x Hy He. apply in_app_or in Hy as [Hy|Hy]; apply in_or_app; [left; exact (Ca _ _ Hy He)|right; exact (Cb _ _ Hy He)].
  - intros y z x Hy Hz E1 E2. apply in_app_or in Hy as [Hy|Hy]; apply in_app_or in Hz as [Hz|Hz]; [exact (Ua _ _ _ Hy Hz E1 E2)|exfalso|exfalso|exact (Ub _ _ _ Hy Hz E1 E2)].
    + exact (disjoint_app _ _ _ _ HN (Ca _ _ Hy E1) (Cb _ _ Hz E2)).
    + exact (disjoint_app _ _ _ _ HN (Ca _ _ Hz E2) (Cb _ _ Hy E1)).
Qed.
Lemma shape_forest q Ak :
  (forall o d kids ks, dir_shape q Ak o d kids ks -> NoDup ks -> closed q ks /\ unique q ks /\ no_parent q ks (o, d) /\ In (o, d) ks) /\
  (forall o l kids ks, list_shape q Ak o l kids ks -> NoDup ks -> closed q ks /\ unique q ks /\
     forall i di x, In (i, di) l -> names_dir o di x -> In x ks /\ no_parent q ks x).
Proof.
  assert (NF : forall o (l : list (list byte * slice)) (ks : list (Z * Z)) i0 di0 n t loc, says di0 n t loc -> KType loc <> RootItemKey -> t <> FtDir ->
    (forall i di x, In (i, di) l -> names_dir o di x -> In x ks /\ no_parent q ks x) -> forall i di x, In (i, di) ((i0, di0) :: l) -> names_dir o di x -> In x ks /\ no_parent q ks x).
  { intros o l ks i0 di0 n t loc Hs HK HT H i di x [Hi|Hi] Hx; [|exact (H i di x Hi Hx)]. assert (di = di0) by congruence. subst. destruct (says_not_dir _ _ _ _ _ _ Hs HK HT Hx). }
  apply shows_mutind.
  - intros o d kids ks He Hl IH HN. inversion HN as [|? ? N1 N2]; subst. destruct (IH N2) as (C & U & P). split; [|split; [|split]].
    + intros y x [<-|Hy] Hx; [|right; exact (C _ _ Hy Hx)]. apply edge_item in Hx as (i & di & Hi & Hx). right. exact (proj1 (P i di x Hi Hx)).
    + intros y z x [<-|Hy] [<-|Hz] E1 E2; [reflexivity| | |exact (U _ _ _ Hy Hz E1 E2)].
      * apply edge_item in E1 as (i & di & Hi & Hx). destruct (proj2 (P i di x Hi Hx) z Hz E2).
      * apply edge_item in E2 as (i & di & Hi & Hx). destruct (proj2 (P i di x Hi Hx) y Hy E1).
    + intros y [<-|Hy] Hx; apply N1; [|exact (C _ _ Hy Hx)]. apply edge_item in Hx as (i & di & Hi & Hx). exact (proj1 (P i di _ Hi Hx)).
    + left. reflexivity.
  - intros o _. split; [intros y x []|]. split; [intros y z x []|]. intros i di x [].
  - intros o k di l n loc c kids ks Hs HK Hf HN Hd Hl IH HND. destruct (IH HND) as (C & U & P). split; [exact C|]. split; [exact U|]. apply (NF _ _ _ _ _ _ _ _ Hs HK ltac:(discriminate) P).
  - intros o k di l n loc c kids ks Hs HK Hf HN Hd Hl IH HND. destruct (IH HND) as (C & U & P). split; [exact C|]. split; [exact U|]. apply (NF _ _ _ _ _ _ _ _ Hs HK ltac:(discriminate) P).
  - intros o k di l n o' d' sub kids ks1 ks2 Hn Hk Hs IHs HN Hd Hl IH HND. destruct (IHs (nodup_l _ _ _ HND)) as (C1 & U1 & P1 & T1). destruct (IH (nodup_r _ _ _ HND)) as (C2 & U2 & P2).
    destruct (forest_app q _ _ HND C1 C2 U1 U2) as [C U]. split; [exact C|]. split; [exact U|]. intros i di0 x [Hi|Hi] Hx.
    + assert (di0 = di) by congruence. subst di0. assert (x = (o', d')) by exact (names_key _ _ _ _ Hx Hk). subst x. split; [apply in_or_app; left; exact T1|]. intros y Hy He. apply in_app_or in Hy as [Hy|Hy]; [exact (P1 y Hy He)|]. exact (disjoint_app _ _ _ _ HND T1 (C2 _ _ Hy He)).
    + destruct (P2 i di0 x Hi Hx) as [A B]. split; [apply in_or_app; right; exact A|]. intros y Hy He. apply in_app_or in Hy as [Hy|Hy]; [|exact (B y Hy He)]. exact (disjoint_app _ _ _ _ HND (C1 _ _ Hy He) A).
  - intros o k di l n t loc kids ks Hs HK T1 T2 T3 Hl IH HND. destruct (IH HND) as (C & U & P). split; [exact C|]. split; [exact U|]. apply (NF _ _ _ _ _ _ _ _ Hs HK T3 P).
Qed.
Lemma shape_inside q Ak :
  (forall o d kids ks, dir_shape q Ak o d kids ks -> forall x, In x ks -> below q (o, d) x /\ exists kx kk a b, dir_shape q Ak (fst x) (snd x) kx kk /\ ks = a ++ kk ++ b) /\
  (forall o l kids ks, list_shape q Ak o l kids ks -> forall x, In x ks -> (exists i di y, In (i, di) l /\ names_dir o di y /\ below q y x) /\ exists kx kk a b, dir_shape q Ak (fst x) (snd x) kx kk /\ ks = a ++ kk ++ b).
Proof.
  assert (G : forall o (l : list (list byte * slice)) x it, (exists i di y, In (i, di) l /\ names_dir o di y /\ below q y x) -> exists i di y, In (i, di) (it :: l) /\ names_dir o di y /\ below q y x).
  { intros o l x it (i & di & y & A & B & C). exists i, di, y. split; [right; exact A|auto]. }
  apply shows_mutind.
  - intros o d kids ks He Hl IH x [<-|Hx].
    + split; [apply Relation_Operators.rt1n_refl|]. exists kids, ((o, d) :: ks), [], []. split; [constructor; assumption|]. cbn [app]. rewrite app_nil_r. reflexivity.
    + destruct (IH x Hx) as ((i & di & y & A & B & C) & kx & kk & a & b & HS & ->). split; [apply (Relation_Operators.rt1n_trans _ _ _ y); [apply edge_item; exists i, di; auto|exact C]|]. exists kx, kk, ((o, d) :: a), b. auto.
  - intros o x [].
  - intros o k di l n loc c kids ks Hs HK Hf HN Hd Hl IH x Hx. destruct (IH x Hx) as [A B]. auto.
  - intros o k di l n loc c kids ks Hs HK Hf HN Hd Hl IH x Hx. destruct (IH x Hx) as [A B]. auto.
  - intros o k di l n o' d' sub kids ks1 ks2 Hn Hk Hs IHs HN Hd Hl IH x Hx. apply in_app_or in Hx as [Hx|Hx].
    + destruct (IHs x Hx) as (A & kx & kk & a & b & HS & ->). split; [exists k, di, (o', d'); split; [left; reflexivity|auto]|]. exists kx, kk, a, (b ++ ks2). split; [exact HS|]. rewrite <- !app_assoc. reflexivity.
    + destruct (IH x Hx) as (A & kx & kk & a & b & HS & ->). split; [exact (G _ _ _ _ A)|]. exists kx, kk, (ks1 ++ a), b. split; [exact HS|]. rewrite <- !app_assoc. reflexivity.
  - intros o k di l n t loc kids ks Hs HK T1 T2 T3 Hl IH x Hx. destruct (IH x Hx) as [A B]. auto.
Qed.
Lemma closed_below q ks x y : closed q ks -> below q x y -> In x ks -> In y ks.
Proof. intros HC H. induction H as [x|x y z E H IH]; intros Hx; [exact Hx|]. apply IH. exact (HC _ _ Hx E). Qed.
Lemma below_last q x y : below q x y -> clos_refl_trans_n1 _ (edge q) x y.
Proof. intros H. apply clos_rt_rtn1, clos_rt1n_rt. exact H. Qed.
Lemma last_below q x y : clos_refl_trans_n1 _ (edge q) x y -> below q x y.
Proof. intros H. apply clos_rt_rt1n, clos_rtn1_rt. exact H. Qed.
Lemma last_cases q a b : clos_refl_trans_n1 _ (edge q) a b -> a = b \/ exists y, clos_refl_trans_n1 _ (edge q) a y /\ edge q y b.
Proof. intros [|y z E H]; [left; reflexivity|right; exists y; auto]. Qed.
(** where every directory has one parent, two directories above the same one are above each other *)
Lemma above_both q q' ks r n x : closed q ks -> unique q ks -> (forall a b, edge q' a b -> edge q a b) -> In r ks -> In n ks ->
  below q' r x -> below q n x -> below q' r n \/ below q n r.
Proof.
  intros HC HU HE Hr Hn H. apply below_last in H. induction H as [|y x E H IH]; intros HB; [right; exact HB|].
  apply below_last in HB. inversion HB as [|z ? E2 H2]; subst; [left; apply last_below; econstructor; eassumption|].
  assert (Hy : In y ks). { apply (closed_below q ks r y HC); [|exact Hr]. apply last_below in H. clear -H HE. induction H as [x|x y z E H IH]; [apply Relation_Operators.rt1n_refl|apply (Relation_Operators.rt1n_trans _ _ _ y); auto]. }
  assert (Hz : In z ks) by (apply (closed_below q ks n z HC); [apply last_below; exact H2|exact Hn]).
  assert (z = y) by exact (HU _ _ _ Hz Hy E2 (HE _ _ E)). subst z. apply IH. apply last_below. exact H2.
Qed.
Lemma below_part q q' : (forall a b, edge q' a b -> edge q a b) -> forall x y, below q' x y -> below q x y.
Proof. intros HE x y H. induction H as [x|x y z E H IH]; [apply Relation_Operators.rt1n_refl|apply (Relation_Operators.rt1n_trans _ _ _ y); auto]. Qed.
(** everything recover meets in a whole volume *)
Definition met (q : queries) (Ak : ask) (ks : list (Z * Z)) : Prop :=
  NoDup ks /\ closed q ks /\ unique q ks /\ no_parent q ks main_top /\ In main_top ks /\ forall x, In x ks -> exists kx kk, dir_shape q Ak (fst x) (snd x) kx kk /\ NoDup kk.
Lemma nodup_mid X (a b c : list X) : NoDup (a ++ b ++ c) -> NoDup b.
Proof. intros H. exact (nodup_l _ _ _ (nodup_r _ _ _ H)). Qed.
Lemma met_main q Ak main ks : dir_shape q Ak FSTreeObjectID FirstFreeObjectID main ks -> NoDup ks -> met q Ak ks.
Proof.
  intros HS HN. destruct (proj1 (shape_forest q Ak) _ _ _ _ HS HN) as (C & U & P & T). split; [exact HN|]. split; [exact C|]. split; [exact U|]. split; [exact P|]. split; [exact T|].
  intros x Hx. destruct (proj1 (shape_inside q Ak) _ _ _ _ HS x Hx) as (_ & kx & kk & a & b & A & ->). exists kx, kk. split; [exact A|exact (nodup_mid _ _ _ _ HN)].
Qed.
Lemma nodup_app X (a b : list X) : NoDup a -> NoDup b -> (forall x, In x a -> ~ In x b) -> NoDup (a ++ b).
Proof. induction a as [|x a IH]; intros Ha Hb H; [exact Hb|]. inversion Ha as [|? ? N1 N2]; subst. cbn [app]. constructor; [|apply IH; [exact N2|exact Hb|intros y Hy; apply H; right; exact Hy]]. intros HI. apply in_app_or in HI as [HI|HI]; [exact (N1 HI)|exact (H x (or_introl eq_refl) HI)]. Qed.
Lemma met_more q Ak o d sub ks vis : met q Ak vis -> dir_shape q Ak o d sub ks -> NoDup ks -> (forall x, In x ks -> ~ In x vis) -> met q Ak (ks ++ vis).
Proof.
  intros (N & C & U & P & T & X) HS HN HD. destruct (proj1 (shape_forest q Ak) _ _ _ _ HS HN) as (C1 & U1 & _ & _). assert (NN : NoDup (ks ++ vis)) by (apply nodup_app; assumption).
  destruct (forest_app q _ _ NN C1 C U1 U) as [C2 U2]. split; [exact NN|]. split; [exact C2|]. split; [exact U2|]. split; [|split; [apply in_or_app; right; exact T|]].
  - intros y Hy He. apply in_app_or in Hy as [Hy|Hy]; [|exact (P y Hy He)]. exact (disjoint_app _ _ _ _ NN (C1 _ _ Hy He) T).
  - intros x Hx. apply in_app_or in Hx as [Hx|Hx]; [|exact (X x Hx)]. destruct (proj1 (shape_inside q Ak) _ _ _ _ HS x Hx) as (_ & kx & kk & a & b & A & ->). exists kx, kk. split; [exact A|exact (nodup_mid _ _ _ _ HN)].
Qed.
Lemma met_all q Ak l vis extra : subvols_shape q Ak l vis extra -> met q Ak vis -> exists all, met q Ak all /\ (forall x, In x vis -> In x all) /\ forall e, In e l -> In (sub_top e) all.
Proof.
  induction 1 as [vis|k d l vis kids H1 H2 IH|k d l vis o n sub ks kids Ho Hn H3 H4 H5 H6 H7 H8 IH]; intros HV.
  - exists vis. split; [exact HV|]. split; [auto|]. intros e [].
  - destruct (IH HV) as (all & A & B & C). exists all. split; [exact A|]. split; [exact B|]. intros e [<-|He]; [apply B; exact H1|exact (C e He)].
  - destruct (IH (met_more _ _ _ _ _ _ _ HV H4 H6 H5)) as (all & A & B & C). exists all. split; [exact A|]. split; [intros x Hx; apply B, in_or_app; right; exact Hx|]. intros e [<-|He]; [|exact (C e He)].
    apply B, in_or_app. left. unfold sub_top. cbn [fst]. rewrite <- Ho. inversion H4; subst. left. reflexivity.
Qed.

Scheme reaches_min := Minimality for reaches Sort Prop
  with item_reaches_min := Minimality for item_reaches Sort Prop.
Combined Scheme reaches_mutind from reaches_min, item_reaches_min.
Lemma reaches_mono q G H : (forall o i, good_file G o i -> good_file H o i) -> (forall o i, good_link G o i -> good_link H o i) ->
  forall o d r, reaches q G o d r -> reaches q H o d r.
Proof.
  intros HF HL. apply (proj1 (reaches_mutind q G (fun o d r => reaches q H o d r) (fun o di r => item_reaches q H o di r)
    (fun o d => intact_here q H o d) (fun o d k di r A _ B => intact_entry q H o d k di r A B)
    (fun o di n loc A B C => intact_file q H o di n loc A B (HF _ _ C)) (fun o di n loc A B C => intact_link q H o di n loc A B (HL _ _ C))
    (fun o di n o' d' r A B _ C => intact_sub q H o di n o' d' r A B C))).
Qed.

(** ** files and links *)
Section Loss.
  Variables (q q' : queries) (D D' : list byte) (bad : Z -> Prop).
  Hypothesis HM : misses q q'.
  Hypothesis HD : zlen D' = zlen D.
  Notation keep := (untouched q q' D D' bad).
  Lemma extent_still ke x : is_extent q ke x -> is_extent q' ke x.
  Proof.
    destruct ke as [k e]. intros [H|[H|(t & n & nr & id & phys & o & H1 & H2 & H3 & H4 & H5 & H6 & H7)]]; [left; exact H|right; left; exact H|right; right].
    exists t, n, nr, id, phys, o. pose proof (ms_phys _ _ HM _ _ H6). tauto.
  Qed.
  Lemma extents_still l xs : Forall2 (is_extent q) l xs -> Forall2 (is_extent q') l xs.
  Proof. induction 1; [constructor|]. constructor; [apply extent_still; assumption|assumption]. Qed.
  Lemma file_still o i c : file_shows q D o i c -> file_legible q' o i.
  Proof.
    intros (xs & it & H1 & H2 & H3 & H4 & H5 & H6 & _). destruct (ms_exts _ _ HM o i) as [K1 K2].
    destruct (part_Forall2 _ _ _ _ _ K1 _ H1) as (xs' & A & B). split; [|split; [exact K2|]].
    - exists xs'. split; [exact (extents_still _ _ A)|]. refine (Forall_impl _ _ (part_Forall _ _ _ _ B H2)). intros x [U1 U2]. split; [exact U1|]. intros off n ->. exact U2.
    - destruct (ms_inode _ _ HM o i) as [E|E]; [left; exact E|right]. exists it, (zlen c). rewrite E. auto.
  Qed.
  Lemma link_still o i t : link_shows q D o i t -> link_legible q' o i.
  Proof.
    intros H. apply shows_legible_link in H. destruct (ms_ext0 _ _ HM o i) as [E|E]; [left; exact E|].
    destruct H as [H|(e & ty & H1 & H2 & H3)]; [left; congruence|right]. exists e, ty. split; [congruence|]. split; [exact H2|]. destruct H3 as [H3|[H3|(H3 & nr & n & eo & p & H4 & H5 & H6 & H7 & H8)]]; [left; exact H3|right; left; exact H3|right; right].
    split; [exact H3|]. exists nr, n, eo, p. pose proof (ms_phys _ _ HM _ _ H7). auto.
  Qed.
  Lemma src_nonneg l xs off n src : Forall2 (is_extent q) l xs -> In (Disk off n src) xs -> 0 <= src.
  Proof.
    intros HX Hx. induction HX as [|ke x l xs He HX IH]; [destruct Hx|]. destruct Hx as [->|Hx]; [|exact (IH Hx)].
    destruct ke as [k0 e]. destruct He as [(d & _ & _ & HF)|[(t & n' & _ & _ & _ & _ & HF)|(t & n' & nr & id & phys & o' & _ & _ & _ & _ & _ & _ & _ & HF)]]; try discriminate HF.
    assert (src = (phys + o') mod 2^64) as -> by congruence. pose proof (u64_range (phys + o')) as Hu. unfold u64, is_u64 in Hu. lia.
  Qed.
  Lemma file_kept o i : good_file keep o i -> exists c, file_shows q D o i c /\ file_shows q' D' o i c /\ file_safe q' bad o i.
  Proof.
    intros ((c & HS) & H1 & H2 & H3). exists c. split; [exact HS|]. pose proof HS as (xs & it & K1 & K2 & K3 & K4 & K5 & K6 & K7).
    assert (A : Forall2 (is_extent q') (st_items (q_extents q' o i)) xs) by (rewrite H1; exact (extents_still _ _ K1)). split.
    - exists xs, it. split; [exact A|]. split; [|split; [exact (proj2 (ms_exts _ _ HM o i))|split; [congruence|split; [exact K5|split; [exact K6|]]]]].
      + apply Forall_forall. intros x Hx. rewrite Forall_forall in K2. destruct (K2 x Hx) as [U1 U2]. split; [exact U1|]. destruct x as [off d|off n|off n src]; [exact Logic.I|exact U2|]. rewrite HD. exact U2.
      + intros j Hj. rewrite (K7 j Hj). unfold file_byte. destruct (find (fun x => covers x j) (rev xs)) as [x|] eqn:EF; [|reflexivity]. apply find_some in EF as [HI HC]. apply in_rev in HI.
        destruct x as [off d|off n|off n src]; cbn [ext_byte]; try reflexivity. unfold covers in HC. cbn [ext_off ext_len] in HC. symmetry. apply (H3 xs off n src _ K1 HI). lia.
    - intros xs' off n src p B HI Hp. rewrite (extents_fun _ _ _ _ B A) in HI. exact (proj2 (H3 xs off n src p K1 HI Hp)).
  Qed.
  Lemma firstn_same (a n : Z) : 0 <= a -> zlen (firstn (Z.to_nat n) (skipn (Z.to_nat a) D)) = n -> (forall p, a <= p < a + n -> byte_at D' p = byte_at D p) ->
    firstn (Z.to_nat n) (skipn (Z.to_nat a) D') = firstn (Z.to_nat n) (skipn (Z.to_nat a) D).
  Proof.
    intros Ha Hn H. assert (HL : forall X : list byte, zlen X = zlen D -> zlen (firstn (Z.to_nat n) (skipn (Z.to_nat a) X)) = n).
    { intros X HX. unfold zlen in *. rewrite firstn_length, skipn_length in *. lia. }
    apply byte_ext; rewrite !HL by auto; [reflexivity|]. intros j Hj. specialize (H (a + j) ltac:(lia)). unfold byte_at in *.
    rewrite !nth_firstn' by lia. rewrite !nth_skipn'. replace (Z.to_nat a + Z.to_nat j)%nat with (Z.to_nat (a + j)) by lia. exact H.
  Qed.
  Lemma link_kept o i : good_link keep o i -> exists t, link_shows q D o i t /\ link_shows q' D' o i t /\ link_safe q' bad o i.
  Proof.
    intros ((t & HS) & H1 & H2). exists t. split; [exact HS|]. destruct HS as (e & K1 & K2 & K3). split.
    - exists e. split; [congruence|]. split; [|exact K3]. destruct K2 as [K2|(ty & n & nr & id & phys & eo & HT & HT0 & Hn & Hnr & Hnz & Hp & Ho & Hl & Ht)]; [left; exact K2|right].
      exists ty, n, nr, id, phys, eo. repeat (split; [assumption|]). split; [exact (ms_phys _ _ HM _ _ Hp)|]. split; [exact Ho|]. split; [exact Hl|]. rewrite firstn_same; [exact Ht| |congruence|].
      + pose proof (u64_range (phys + eo)) as Hu. unfold u64, is_u64 in Hu. lia.
      + intros p Hp'. exact (proj1 (H2 e ty n nr id phys eo p K1 HT HT0 Hn Hnr Hp Ho Hp')).
    - intros e' ty n nr id phys eo p A1 A2 A3 A4 A5 A6 A7 A8. assert (e' = e) by congruence. subst e'.
      destruct K2 as [(K2 & _)|(ty' & n' & nr' & id' & phys' & eo' & HT & HT0 & Hn & Hnr & Hnz & Hp & Ho & _)]; [congruence|].
      assert (nr' = nr) by congruence. subst nr'. pose proof (ms_phys _ _ HM _ _ Hp) as Hp'. assert (phys' = phys) by congruence. assert (id' = id) by congruence. subst. exact (proj2 (H2 e ty n nr id phys eo p K1 A2 A3 A4 A5 Hp A7 A8)).
  Qed.
  Lemma file_part o i c : file_shows q D o i c -> exists c', ask_file (listed q' D') o i c' /\ (good_file keep o i -> c' = c).
  Proof.
    intros H. destruct (listed_file q' D' o i (file_still _ _ _ H)) as (c' & Hc). exists c'. split; [exact Hc|]. intros HK. destruct (file_kept _ _ HK) as (c0 & A & B & _). rewrite (proj2 Hc c0 B). exact (shows_unique _ _ _ _ _ _ A H).
  Qed.
  Lemma link_part o i t : link_shows q D o i t -> exists t', ask_link (listed q' D') o i t' /\ (good_link keep o i -> t' = t).
  Proof.
    intros H. destruct (listed_link q' D' o i (link_still _ _ _ H)) as (t' & Ht). exists t'. split; [exact Ht|]. intros HK. destruct (link_kept _ _ HK) as (t0 & A & B & _). rewrite (proj2 Ht t0 B). exact (link_unique _ _ _ _ _ _ A H).
  Qed.

  (** ** trees *)
  Definition like (t' t : tree) : Prop := forall r nd, tree_at t' r = Some nd -> exists nd', tree_at t r = Some nd' /\ kind_of nd = kind_of nd'.
  Lemma pick_In kids c t : pick kids c = Some t -> In c (map fst kids).
  Proof. induction kids as [|[m s] kids IH]; cbn [pick]; [discriminate|]. destruct (list_eq_dec Byte.byte_eq_dec m c) as [->|]; [left; reflexivity|right; auto]. Qed.
  Lemma at_skip n t kids c r : c <> n -> tree_at (TDir ((n, t) :: kids)) (c :: r) = tree_at (TDir kids) (c :: r).
  Proof. intros H. cbn [tree_at pick]. destruct (list_eq_dec Byte.byte_eq_dec n c) as [->|]; [congruence|reflexivity]. Qed.
  Lemma at_this n t kids r : tree_at (TDir ((n, t) :: kids)) (n :: r) = tree_at t r.
  Proof. cbn [tree_at pick]. destruct (list_eq_dec Byte.byte_eq_dec n n); [reflexivity|congruence]. Qed.
  Lemma at_name kids c r nd : tree_at (TDir kids) (c :: r) = Some nd -> In c (map fst kids).
  Proof. cbn [tree_at]. destruct (pick kids c) eqn:E; [intros _; exact (pick_In _ _ _ E)|discriminate]. Qed.
  (** what the smaller list of entries has to do with the larger one *)
  Definition fits (o : Z) (l' : list (list byte * slice)) (kids' kids : entries) : Prop :=
    (forall n, In n (map fst kids') -> In n (map fst kids)) /\ like (TDir kids') (TDir kids) /\
    (forall k di n r, In (k, di) l' -> item_reaches q' keep o di (n :: r) -> In n (map fst kids') /\ tree_at (TDir kids') (n :: r) = tree_at (TDir kids) (n :: r)).
  Lemma fits_drop o l' kids' kids n t : fits o l' kids' kids -> ~ In n (map fst kids) -> fits o l' kids' ((n, t) :: kids).
  Proof.
    intros (H1 & H2 & H3) Hn. split; [intros m Hm; right; exact (H1 m Hm)|]. split.
    - intros [|c r] nd H; [exists NDir; split; [reflexivity|]; cbn in H; injection H as <-; reflexivity|]. rewrite at_skip; [exact (H2 _ _ H)|]. intros ->. exact (Hn (H1 _ (at_name _ _ _ _ H))).
    - intros k di m r Hi Hr. destruct (H3 k di m r Hi Hr) as [A B]. split; [exact A|]. rewrite at_skip; [exact B|]. intros ->. exact (Hn (H1 _ A)).
  Qed.
  Lemma fits_keep o l' kids' kids k di n t' t : fits o l' kids' kids -> ~ In n (map fst kids) -> like t' t -> DirItem_Name di = Ok n ->
    (forall r, item_reaches q' keep o di (n :: r) -> tree_at t' r = tree_at t r) -> fits o ((k, di) :: l') ((n, t') :: kids') ((n, t) :: kids).
  Proof.
    intros (H1 & H2 & H3) Hn HL HN HR. split; [intros m [Hm|Hm]; [left; exact Hm|right; exact (H1 m Hm)]|]. split.
    - intros [|c r] nd H; [exists NDir; split; [reflexivity|]; cbn in H; injection H as <-; reflexivity|]. destruct (list_eq_dec Byte.byte_eq_dec c n) as [->|Hc].
      + rewrite at_this in H |- *. exact (HL _ _ H).
      + rewrite at_skip in H |- * by exact Hc. exact (H2 _ _ H).
    - intros k0 di0 m r [Hi|Hi] Hr.
      + assert (di0 = di) by congruence. subst di0. pose proof (item_name _ _ _ _ _ _ Hr) as HN'. assert (m = n) by congruence. subst m. split; [left; reflexivity|]. rewrite !at_this. exact (HR r Hr).
      + destruct (H3 k0 di0 m r Hi Hr) as [A B]. split; [right; exact A|]. rewrite !at_skip; [exact B|intros ->; exact (Hn (H1 _ A))..].
  Qed.
  Lemma like_refl t : like t t. Proof. intros r nd H. exists nd. auto. Qed.
  Lemma like_file c c' : like (TFile c') (TFile c).
  Proof. intros [|x r] nd H; cbn in H; [injection H as <-; exists (NFile c); auto|discriminate]. Qed.
  Lemma like_link c c' : like (TLink c') (TLink c).
  Proof. intros [|x r] nd H; cbn in H; [injection H as <-; exists (NLink c); auto|discriminate]. Qed.
  Lemma item_says_file o di n loc r : item_reaches q' keep o di (n :: r) -> says di n FtRegFile loc -> KType loc <> RootItemKey -> r = [] /\ good_file keep o (ObjectID loc).
  Proof.
    intros HI HS HK. inversion HI as [? ? n' loc' S1 S2 S3|? ? n' loc' S1 S2 S3|? ? n' o'' d'' r' S1 S2 S3]; subst.
    - destruct HS as (A1 & A2 & A3), S1 as (B1 & B2 & B3). assert (loc' = loc) by congruence. subst. auto.
    - destruct HS as (A1 & A2 & A3), S1 as (B1 & B2 & B3). exfalso. assert (FtRegFile = FtSymlink) by congruence. discriminate.
    - destruct (says_not_dir _ _ _ _ _ _ HS HK ltac:(discriminate) S2).
  Qed.
  Lemma item_says_link o di n loc r : item_reaches q' keep o di (n :: r) -> says di n FtSymlink loc -> KType loc <> RootItemKey -> r = [] /\ good_link keep o (ObjectID loc).
  Proof.
    intros HI HS HK. inversion HI as [? ? n' loc' S1 S2 S3|? ? n' loc' S1 S2 S3|? ? n' o'' d'' r' S1 S2 S3]; subst.
    - destruct HS as (A1 & A2 & A3), S1 as (B1 & B2 & B3). exfalso. assert (FtRegFile = FtSymlink) by congruence. discriminate.
    - destruct HS as (A1 & A2 & A3), S1 as (B1 & B2 & B3). assert (loc' = loc) by congruence. subst. auto.
    - destruct (says_not_dir _ _ _ _ _ _ HS HK ltac:(discriminate) S2).
  Qed.
  Lemma item_says_dir o di n o' d' r : item_reaches q' keep o di (n :: r) -> names_dir o di (o', d') -> reaches q' keep o' d' r.
  Proof.
    intros HI HS. inversion HI as [? ? n' loc' S1 S2 S3|? ? n' loc' S1 S2 S3|? ? n' o'' d'' r' S1 S2 S3]; subst.
    - destruct (says_not_dir _ _ _ _ _ _ S1 S2 ltac:(discriminate) HS).
    - destruct (says_not_dir _ _ _ _ _ _ S1 S2 ltac:(discriminate) HS).
    - pose proof (names_key _ _ _ _ HS S2) as E. assert (o'' = o') by congruence. assert (d'' = d') by congruence. subst. exact S3.
  Qed.
  Lemma item_other o di n t loc m r : item_reaches q' keep o di (m :: r) -> says di n t loc -> KType loc <> RootItemKey -> t <> FtRegFile -> t <> FtSymlink -> t <> FtDir -> False.
  Proof.
    intros HI HS HK T1 T2 T3. inversion HI as [? ? n' loc' S1 S2 S3|? ? n' loc' S1 S2 S3|? ? n' o'' d'' r' S1 S2 S3]; subst.
    - destruct HS as (A1 & A2 & A3), S1 as (B1 & B2 & B3). congruence.
    - destruct HS as (A1 & A2 & A3), S1 as (B1 & B2 & B3). congruence.
    - destruct (says_not_dir _ _ _ _ _ _ HS HK T3 S2).
  Qed.
  Lemma item_nonempty o di : ~ item_reaches q' keep o di [].
  Proof. intros H. inversion H. Qed.
  Lemma shape_part :
    (forall o d kids ks, dir_shows q D o d kids ks -> exists kids' ks', dir_shape q' (listed q' D') o d kids' ks' /\ part_of ks' ks /\
       like (TDir kids') (TDir kids) /\ (forall n, In n (map fst kids') -> In n (map fst kids)) /\ (forall r, reaches q' keep o d r -> tree_at (TDir kids') r = tree_at (TDir kids) r)) /\
    (forall o l kids ks, list_shows q D o l kids ks -> forall l', part_of l' l -> exists kids' ks', list_shape q' (listed q' D') o l' kids' ks' /\ part_of ks' ks /\ fits o l' kids' kids).
  Proof.
    apply shows_mutind.
    - intros o d kids ks He _ IH. destruct (ms_dirs _ _ HM o d) as [K1 K2]. destruct (IH _ K1) as (kids' & ks' & A1 & A2 & A3 & A4 & A5). exists kids', ((o, d) :: ks').
      split; [constructor; assumption|]. split; [constructor; exact A2|]. split; [exact A4|]. split; [exact A3|]. intros r Hr. inversion Hr as [|? ? k di r' Hi Hr']; subst; [reflexivity|].
      destruct r as [|n r]; [destruct (item_nonempty _ _ Hr')|]. exact (proj2 (A5 k di n r Hi Hr')).
    - intros o l' HP. inversion HP; subst. exists [], []. split; [constructor|]. split; [constructor|]. split; [auto|]. split; [apply like_refl|]. intros k di n r [].
    - intros o k di l n loc c kids ks Hs HK Hf HN Hd Hl IH l' HP. inversion HP as [|x l1 l2 HP1|x l1 l2 HP1]; subst; destruct (IH _ HP1) as (kids' & ks' & A1 & A2 & A3).
      + destruct (file_part _ _ _ Hf) as (c' & B1 & B2). exists ((n, TFile c') :: kids'), ks'. split; [|split; [exact A2|]].
        * eapply shows_file; [exact Hs|exact HK|exact B1|exact HN|intros HI; exact (Hd (proj1 A3 _ HI))|exact A1].
        * apply fits_keep; [exact A3|exact Hd|apply like_file|exact (proj1 Hs)|]. intros r Hr. destruct (item_says_file _ _ _ _ _ Hr Hs HK) as [-> HG]. rewrite (B2 HG). reflexivity.
      + exists kids', ks'. split; [exact A1|]. split; [exact A2|]. apply fits_drop; assumption.
    - intros o k di l n loc c kids ks Hs HK Hf HN Hd Hl IH l' HP. inversion HP as [|x l1 l2 HP1|x l1 l2 HP1]; subst; destruct (IH _ HP1) as (kids' & ks' & A1 & A2 & A3).
      + destruct (link_part _ _ _ Hf) as (c' & B1 & B2). exists ((n, TLink c') :: kids'), ks'. split; [|split; [exact A2|]].
        * eapply shows_link; [exact Hs|exact HK|exact B1|exact HN|intros HI; exact (Hd (proj1 A3 _ HI))|exact A1].
        * apply fits_keep; [exact A3|exact Hd|apply like_link|exact (proj1 Hs)|]. intros r Hr. destruct (item_says_link _ _ _ _ _ Hr Hs HK) as [-> HG]. rewrite (B2 HG). reflexivity.
      + exists kids', ks'. split; [exact A1|]. split; [exact A2|]. apply fits_drop; assumption.
    - intros o k di l n o' d' sub kids ks1 ks2 Hn Hk Hs IHs HN Hd Hl IH l' HP. inversion HP as [|x l1 l2 HP1|x l1 l2 HP1]; subst; destruct (IH _ HP1) as (kids' & ks' & A1 & A2 & A3).
      + destruct IHs as (sub' & ks1' & B1 & B2 & B3 & B4 & B5). exists ((n, TDir sub') :: kids'), (ks1' ++ ks'). split; [|split; [apply part_app; assumption|]].
        * eapply shows_sub; [exact Hn|exact Hk|exact B1|exact HN|intros HI; exact (Hd (proj1 A3 _ HI))|exact A1].
        * apply fits_keep; [exact A3|exact Hd|exact B3|exact Hn|]. intros r Hr. apply B5. exact (item_says_dir _ _ _ _ _ _ Hr Hk).
      + exists kids', ks'. split; [exact A1|]. split; [|apply fits_drop; assumption]. exact (part_app _ [] _ _ _ (part_nil _ ks1) A2).
    - intros o k di l n t loc kids ks Hs HK T1 T2 T3 Hl IH l' HP. inversion HP as [|x l1 l2 HP1|x l1 l2 HP1]; subst; destruct (IH _ HP1) as (kids' & ks' & A1 & A2 & A3).
      + exists kids', ks'. split; [eapply shows_other; eassumption|]. split; [exact A2|]. destruct A3 as (C1 & C2 & C3). split; [exact C1|]. split; [exact C2|]. intros k0 di0 m r [Hi|Hi] Hr; [|exact (C3 _ _ _ _ Hi Hr)].
        exfalso. assert (di0 = di) by congruence. subst. exact (item_other _ _ _ _ _ _ _ Hr Hs HK T1 T2 T3).
      + exists kids', ks'. auto.
  Qed.

  (** ** the whole volume *)
  Lemma edges_part a b : edge q' a b -> edge q a b.
  Proof. intros (e & H1 & H2). exists e. split; [exact (part_In _ _ _ (proj1 (ms_dirs _ _ HM _ _)) _ H1)|exact H2]. Qed.
  Definition later (m n : list byte * slice) : Prop := sub_top m = sub_top n \/ ~ below q (sub_top n) (sub_top m).
  Lemma top_dec (x y : Z * Z) : {x = y} + {x <> y}.
  Proof. decide equality; apply Z.eq_dec. Qed.
  Lemma subs_part all : met q (shown q D) all -> forall l', (forall e, In e l' -> In (sub_top e) all) -> ForallOrdPairs later l' ->
    forall vis, closed q' vis -> In main_top vis ->
    (forall x, In x vis -> exists r, below q' r x /\ In r vis /\ In r all /\ (r = main_top \/ exists e, r = sub_top e /\ Forall (later e) l')) ->
    exists extra, subvols_shape q' (listed q' D') l' vis extra /\
      (forall c r nd, tree_at (TDir extra) (c :: r) = Some nd -> exists e sub kk, In e l' /\ c = made_up e /\ dir_shows q D (fst (sub_top e)) (snd (sub_top e)) sub kk /\ exists nd', tree_at (TDir sub) r = Some nd' /\ kind_of nd = kind_of nd') /\
      (forall e, In e l' -> In (sub_top e) vis \/ (exists e', In e' l' /\ sub_top e' <> sub_top e /\ below q' (sub_top e') (sub_top e)) \/
        (exists sub kk, dir_shows q D (fst (sub_top e)) (snd (sub_top e)) sub kk /\ forall r, reaches q' keep (fst (sub_top e)) (snd (sub_top e)) r -> tree_at (TDir extra) (made_up e :: r) = tree_at (TDir sub) r)).
  Proof.
    intros (N & C & U & P & T & X). induction l' as [|e l' IH]; intros HA HO vis HC HT HV.
    - exists []. split; [constructor|]. split; [intros c r nd H; discriminate|]. intros e [].
    - inversion HO as [|? ? O1 O2]; subst. destruct (in_dec top_dec (sub_top e) vis) as [Hin|Hin].
      + destruct (IH (fun e' He' => HA e' (or_intror He')) O2 vis HC HT) as (extra & A1 & A2 & A3).
        { intros x Hx. destruct (HV x Hx) as (r & B1 & B2 & B3 & B4). exists r. split; [exact B1|]. split; [exact B2|]. split; [exact B3|]. destruct B4 as [->|(e' & -> & B4)]; [left; reflexivity|right; exists e'; split; [reflexivity|]]. inversion B4; assumption. }
        exists extra. split; [destruct e as [k d]; apply subs_seen; assumption|]. split.
        * intros c r nd H. destruct (A2 c r nd H) as (e' & sub & kk & B1 & B2). exists e', sub, kk. split; [right; exact B1|exact B2].
        * intros e' [<-|He']; [left; exact Hin|]. destruct (A3 e' He') as [B|[(e2 & B1 & B2)|B]]; [left; exact B|right; left; exists e2; split; [right; exact B1|exact B2]|right; right; exact B].
      + destruct (X (sub_top e) (HA e (or_introl eq_refl))) as (sub & kk & HS & HK). destruct (proj1 shape_part _ _ _ _ HS) as (sub' & kk' & S1 & S2 & S3 & S4 & S5).
        assert (NK : NoDup kk') by exact (part_NoDup _ _ _ S2 HK). destruct (proj1 (shape_forest q' _) _ _ _ _ S1 NK) as (KC & KU & KP & KT). change (fst (sub_top e), snd (sub_top e)) with (sub_top e) in KT.
        assert (HB : forall x, In x kk' -> below q' (sub_top e) x) by (intros x Hx; exact (proj1 (proj1 (shape_inside q' _) _ _ _ _ S1 x Hx))).
        assert (HDj : forall x, In x kk' -> ~ In x vis).
        { intros x Hx Hx2. destruct (HV x Hx2) as (r & B1 & B2 & B3 & B4). pose proof (below_part q q' edges_part _ _ (HB x Hx)) as HB2.
          destruct (above_both q q' all r (sub_top e) x C U edges_part B3 (HA e (or_introl eq_refl)) B1 HB2) as [K|K]; [exact (Hin (closed_below _ _ _ _ HC K B2))|].
          destruct B4 as [->|(e' & -> & B4)].
          - apply below_last in K. destruct (last_cases _ _ _ K) as [K1|(y & K1 & E)]; [apply Hin; rewrite K1; exact HT|]. apply (P y); [|exact E]. apply (closed_below q all (sub_top e) y C); [apply last_below; exact K1|exact (HA e (or_introl eq_refl))].
          - inversion B4 as [|? ? L1 L2]; subst. destruct L1 as [L1|L1]; [apply Hin; rewrite <- L1; exact B2|exact (L1 K)]. }
        destruct (IH (fun e' He' => HA e' (or_intror He')) O2 (kk' ++ vis)) as (extra & A1 & A2 & A3).
        { intros y x Hy Hx. apply in_app_or in Hy as [Hy|Hy]; apply in_or_app; [left; exact (KC _ _ Hy Hx)|right; exact (HC _ _ Hy Hx)]. }
        { apply in_or_app. right. exact HT. }
        { intros x Hx. apply in_app_or in Hx as [Hx|Hx].
          - exists (sub_top e). split; [exact (HB x Hx)|]. split; [apply in_or_app; left; exact KT|]. split; [exact (HA e (or_introl eq_refl))|]. right. exists e. auto.
          - destruct (HV x Hx) as (r & B1 & B2 & B3 & B4). exists r. split; [exact B1|]. split; [apply in_or_app; right; exact B2|]. split; [exact B3|]. destruct B4 as [->|(e' & -> & B4)]; [left; reflexivity|right; exists e'; split; [reflexivity|]]. inversion B4; assumption. }
        assert (HNm : forall n, In n (map fst extra) -> n <> made_up e).
        { intros n Hn ->. destruct (subs_new_only _ _ _ _ _ A1 _ Hn) as (k2 & B1 & B2). apply B2. apply in_or_app. left. apply subvol_inj in B1. unfold sub_top in KT. replace (ObjectID (ik_Key k2)) with (ObjectID (ik_Key (fst e))) by exact B1. exact KT. }
        exists ((made_up e, TDir sub') :: extra). split; [|split].
        * destruct e as [k d]. apply (subs_new q' (listed q' D') k d l' vis (ObjectID (ik_Key k)) (made_up (k, d)) sub' kk'); [reflexivity|reflexivity|exact Hin|exact S1|exact HDj|exact NK|intros HI; exact (HNm _ HI eq_refl)|exact A1].
        * intros c r nd H. destruct (list_eq_dec Byte.byte_eq_dec c (made_up e)) as [->|Hc].
          -- rewrite at_this in H. exists e, sub, kk. split; [left; reflexivity|]. split; [reflexivity|]. split; [exact HS|]. exact (S3 _ _ H).
          -- rewrite at_skip in H by exact Hc. destruct (A2 c r nd H) as (e' & sub2 & kk2 & B1 & B2). exists e', sub2, kk2. split; [right; exact B1|exact B2].
        * intros e' He'. destruct (top_dec (sub_top e') (sub_top e)) as [ET|ET].
          { right. right. exists sub, kk. rewrite ET. split; [exact HS|]. intros r Hr. replace (made_up e') with (made_up e); [rewrite at_this; apply S5; exact Hr|]. unfold made_up. unfold sub_top in ET. congruence. }
          destruct He' as [<-|He']; [congruence|]. destruct (A3 e' He') as [B|[(e2 & B1 & B2)|(sub2 & kk2 & B1 & B2)]].
          -- apply in_app_or in B as [B|B]; [right; left; exists e; split; [left; reflexivity|]; split; [congruence|exact (HB _ B)]|left; exact B].
          -- right. left. exists e2. split; [right; exact B1|exact B2].
          -- right. right. exists sub2, kk2. split; [exact B1|]. intros r Hr. rewrite at_skip; [exact (B2 r Hr)|]. intros HX. apply ET. unfold sub_top. unfold made_up in HX. apply subvol_inj in HX. congruence.
  Qed.
  Lemma part_FOP X (R : X -> X -> Prop) (a b : list X) : part_of a b -> ForallOrdPairs R b -> ForallOrdPairs R a.
  Proof. induction 1 as [|y l' l H IH|y l' l H IH]; intros HF; inversion HF as [|? ? F1 F2]; subst; [constructor|constructor; [exact (part_Forall _ _ _ _ H F1)|exact (IH F2)]|exact (IH F2)]. Qed.
  Lemma at_app a b c r : In c (map fst a) -> tree_at (TDir (a ++ b)) (c :: r) = tree_at (TDir a) (c :: r).
  Proof.
    induction a as [|[m t] a IH]; intros H; [destruct H|]. cbn [app]. destruct (list_eq_dec Byte.byte_eq_dec c m) as [->|Hc]; [rewrite !at_this; reflexivity|]. rewrite !at_skip by exact Hc. apply IH. destruct H as [H|H]; [cbn [fst] in H; congruence|exact H].
  Qed.
  Lemma at_app_r a b c r : ~ In c (map fst a) -> tree_at (TDir (a ++ b)) (c :: r) = tree_at (TDir b) (c :: r).
  Proof.
    induction a as [|[m t] a IH]; intros H; [reflexivity|]. cbn [app]. rewrite at_skip; [apply IH; intros HI; apply H; right; exact HI|]. intros ->. apply H. left. reflexivity.
  Qed.
  Lemma volume_part kids : volume_shows q D kids -> parents_first q -> no_made_up q ->
    exists kids', volume_lists q' D' kids' /\
      (forall r nd, tree_at (TDir kids') r = Some nd -> (exists nd', tree_at (TDir kids) r = Some nd' /\ kind_of nd = kind_of nd') \/
         exists e sub kk s, In e (st_items (q_subvolumes q')) /\ r = made_up e :: s /\ dir_shows q D (fst (sub_top e)) (snd (sub_top e)) sub kk /\ exists nd', tree_at (TDir sub) s = Some nd' /\ kind_of nd = kind_of nd') /\
      (forall r, reaches q' keep FSTreeObjectID FirstFreeObjectID r -> tree_at (TDir kids') r = tree_at (TDir kids) r) /\
      (forall e, In e (st_items (q_subvolumes q')) -> orphan q' e -> exists sub kk, dir_shows q D (fst (sub_top e)) (snd (sub_top e)) sub kk /\
         forall r, reaches q' keep (fst (sub_top e)) (snd (sub_top e)) r -> tree_at (TDir kids') (made_up e :: r) = tree_at (TDir sub) r).
  Proof.
    intros (main & ks & extra & HMn & HN & HX & _ & -> & HDj) HPF HNM. destruct (met_all _ _ _ _ _ HX (met_main _ _ _ _ HMn HN)) as (all & HAll & HI1 & HI2).
    destruct (proj1 shape_part _ _ _ _ HMn) as (main' & ks' & S1 & S2 & S3 & S4 & S5). pose proof (part_NoDup _ _ _ S2 HN) as NK.
    destruct (proj1 (shape_forest q' _) _ _ _ _ S1 NK) as (KC & KU & KP & KT). destruct (ms_subs _ _ HM) as [P1 P2].
    destruct (subs_part all HAll (st_items (q_subvolumes q')) (fun e He => HI2 e (part_In _ _ _ P1 e He)) (part_FOP _ _ _ _ P1 HPF) ks' KC KT) as (extra' & A1 & A2 & A3).
    { intros x Hx. exists main_top. split; [exact (proj1 (proj1 (shape_inside q' _) _ _ _ _ S1 x Hx))|]. split; [exact KT|]. split; [|left; reflexivity]. apply HI1. exact (part_In _ _ _ S2 _ KT). }
    assert (HNE : forall e c, In e (st_items (q_subvolumes q')) -> In c (map fst main') -> c <> made_up e).
    { intros e c He Hc ->. inversion S1 as [? ? ? ? _ HL]; subst. destruct (shown_item _ _ _ _ _ _ HL _ Hc) as (k & di & B1 & B2).
      exact (HNM e k di (part_In _ _ _ P1 e He) (part_In _ _ _ (proj1 (ms_dirs _ _ HM _ _)) _ B1) B2). }
    assert (HEx : forall n, In n (map fst extra') -> exists e, In e (st_items (q_subvolumes q')) /\ n = made_up e).
    { intros n Hn. apply in_map_iff in Hn as ([n' t] & EN & HI). cbn [fst] in EN. subst n'. destruct (pick extra' n) as [t'|] eqn:EP.
      - destruct (A2 n [] (top_node t')) as (e & _ & _ & B1 & B2 & _); [cbn [tree_at]; rewrite EP; reflexivity|]. exists e. auto.
      - exfalso. clear -EP HI. induction extra' as [|[m s] ex IH]; [destruct HI|]. cbn [pick] in EP. destruct (list_eq_dec Byte.byte_eq_dec m n) as [->|Hm]; [discriminate|]. destruct HI as [HI|HI]; [congruence|auto]. }
    exists (main' ++ extra'). split; [|split; [|split]].
    - exists main', ks', extra'. split; [exact S1|]. split; [exact NK|]. split; [exact A1|]. split; [exact P2|]. split; [reflexivity|]. intros n Hn Hn2. destruct (HEx n Hn2) as (e & B1 & ->). exact (HNE e _ B1 Hn eq_refl).
    - intros [|c r] nd H; [left; exists NDir; split; [reflexivity|]; cbn in H; injection H as <-; reflexivity|]. destruct (in_dec (list_eq_dec Byte.byte_eq_dec) c (map fst main')) as [Hc|Hc].
      + left. rewrite at_app in H by exact Hc. rewrite at_app by exact (S4 _ Hc). exact (S3 _ _ H).
      + right. rewrite at_app_r in H by exact Hc. destruct (A2 c r nd H) as (e & sub & kk & B1 & -> & B3). exists e, sub, kk, r. auto.
    - intros r Hr. pose proof (S5 r Hr) as E5. destruct r as [|c r]; [reflexivity|]. inversion Hr as [|? ? k di r' Hi Hr']; subst.
      assert (Hc : In c (map fst main')) by (inversion S1 as [? ? ? ? _ HL]; subst; exact (intact_shown _ _ _ _ _ _ _ HL _ _ _ _ Hi Hr')). rewrite at_app by exact Hc. rewrite at_app by exact (S4 _ Hc). exact E5.
    - intros e He [O1 O2]. destruct (A3 e He) as [B|[(e' & B1 & B2 & B3)|(sub & kk & B1 & B2)]].
      + destruct (O1 (proj1 (proj1 (shape_inside q' _) _ _ _ _ S1 _ B))).
      + destruct (O2 e' B1 B2 B3).
      + exists sub, kk. split; [exact B1|]. intros r Hr. rewrite at_app_r; [exact (B2 r Hr)|]. intros HI. exact (HNE e _ He HI eq_refl).
  Qed.
  (** what is untouched is complete in the smaller index *)
  Lemma reaches_complete o d r : reaches q' keep o d r -> reaches q' (complete q' D' bad) o d r.
  Proof.
    revert o d r. apply (reaches_mono q' keep (complete q' D' bad)).
    - intros o i H. destruct (file_kept _ _ H) as (c & _ & A & B). split; [exists c; exact A|exact B].
    - intros o i H. destruct (link_kept _ _ H) as (c & _ & A & B). split; [exists c; exact A|exact B].
  Qed.
End Loss.
(** what a directory shows is determined by index and device *)
Lemma shows_fun q D :
  (forall o d kids ks, dir_shows q D o d kids ks -> forall kids2 ks2, dir_shows q D o d kids2 ks2 -> kids2 = kids /\ ks2 = ks) /\
  (forall o l kids ks, list_shows q D o l kids ks -> forall kids2 ks2, list_shows q D o l kids2 ks2 -> kids2 = kids /\ ks2 = ks).
Proof.
  assert (SS : forall di n t loc n' t' loc', says di n t loc -> says di n' t' loc' -> n' = n /\ t' = t /\ loc' = loc) by (intros di n t loc n' t' loc' (A1 & A2 & A3) (B1 & B2 & B3); repeat split; congruence).
  apply shows_mutind.
  - intros o d kids ks He Hl IH kids2 ks2 H. inversion H as [? ? ? ks3 He2 Hl2]; subst. destruct (IH _ _ Hl2) as [-> ->]. auto.
  - intros o kids2 ks2 H. inversion H; subst. auto.
  - intros o k di l n loc c kids ks Hs HK Hf HN Hd Hl IH kids2 ks2 H.
    inversion H as [|? ? ? ? n2 loc2 c2 kids3 ks3 S2 K2 F2 N2 D2 L2|? ? ? ? n2 loc2 c2 kids3 ks3 S2 K2 F2 N2 D2 L2|? ? ? ? n2 o2 d2 sub2 kids3 ks3 ks4 S2 K2 F2 N2 D2 L2|? ? ? ? n2 t2 loc2 kids3 ks3 S2 K2 T1 T2 T3 L2]; subst.
    + destruct (SS _ _ _ _ _ _ _ Hs S2) as (-> & _ & ->). destruct (IH _ _ L2) as [-> ->]. rewrite (shows_unique _ _ _ _ _ _ Hf F2). auto.
    + destruct (SS _ _ _ _ _ _ _ Hs S2) as (_ & X & _). discriminate X.
    + destruct (says_not_dir _ _ _ _ _ _ Hs HK ltac:(discriminate) K2).
    + destruct (SS _ _ _ _ _ _ _ Hs S2) as (_ & X & _). congruence.
  - intros o k di l n loc c kids ks Hs HK Hf HN Hd Hl IH kids2 ks2 H.
    inversion H as [|? ? ? ? n2 loc2 c2 kids3 ks3 S2 K2 F2 N2 D2 L2|? ? ? ? n2 loc2 c2 kids3 ks3 S2 K2 F2 N2 D2 L2|? ? ? ? n2 o2 d2 sub2 kids3 ks3 ks4 S2 K2 F2 N2 D2 L2|? ? ? ? n2 t2 loc2 kids3 ks3 S2 K2 T1 T2 T3 L2]; subst.
    + destruct (SS _ _ _ _ _ _ _ Hs S2) as (_ & X & _). discriminate X.
    + destruct (SS _ _ _ _ _ _ _ Hs S2) as (-> & _ & ->). destruct (IH _ _ L2) as [-> ->]. rewrite (link_unique _ _ _ _ _ _ Hf F2). auto.
    + destruct (says_not_dir _ _ _ _ _ _ Hs HK ltac:(discriminate) K2).
    + destruct (SS _ _ _ _ _ _ _ Hs S2) as (_ & X & _). congruence.
  - intros o k di l n o' d' sub kids ks1 ks2 Hn Hk Hs IHs HN Hd Hl IH kids2 ks22 H.
    inversion H as [|? ? ? ? n2 loc2 c2 kids3 ks3 S2 K2 F2 N2 D2 L2|? ? ? ? n2 loc2 c2 kids3 ks3 S2 K2 F2 N2 D2 L2|? ? ? ? n2 o2 d2 sub2 kids3 ks3 ks4 S2 K2 F2 N2 D2 L2|? ? ? ? n2 t2 loc2 kids3 ks3 S2 K2 T1 T2 T3 L2]; subst.
    + destruct (says_not_dir _ _ _ _ _ _ S2 K2 ltac:(discriminate) Hk).
    + destruct (says_not_dir _ _ _ _ _ _ S2 K2 ltac:(discriminate) Hk).
    + pose proof (names_key _ _ _ _ Hk K2) as E. assert (o2 = o') by congruence. assert (d2 = d') by congruence. assert (n2 = n) by congruence. subst. destruct (IHs _ _ F2) as [-> ->]. destruct (IH _ _ L2) as [-> ->]. auto.
    + destruct (says_not_dir _ _ _ _ _ _ S2 K2 T3 Hk).
  - intros o k di l n t loc kids ks Hs HK T1 T2 T3 Hl IH kids2 ks2 H.
    inversion H as [|? ? ? ? n2 loc2 c2 kids3 ks3 S2 K2 F2 N2 D2 L2|? ? ? ? n2 loc2 c2 kids3 ks3 S2 K2 F2 N2 D2 L2|? ? ? ? n2 o2 d2 sub2 kids3 ks3 ks4 S2 K2 F2 N2 D2 L2|? ? ? ? n2 t2 loc2 kids3 ks3 S2 K2 T4 T5 T6 L2]; subst.
    + destruct (SS _ _ _ _ _ _ _ Hs S2) as (_ & X & _). congruence.
    + destruct (SS _ _ _ _ _ _ _ Hs S2) as (_ & X & _). congruence.
    + destruct (says_not_dir _ _ _ _ _ _ Hs HK T3 K2).
    + exact (IH _ _ L2).
Qed.

(** C83: mounting any volume whose items can be decoded. *)
From Verif Require Import Go GoProofs Layout LayoutProofs SpecLayout StructProofs PropsLayout KeyFmt IoUtil Path Fs Recover SpecFs SpecContent SpecTree SpecLoss Conc PropsConc Rescue PropsRescueRead PropsRescueNode SpecMount PropsMount SpecMountAny.
From Coq Require Import List Permutation ZifyBool ZifyNat ZifyN.
Ltac Zify.zify_post_hook ::= Z.div_mod_to_equations.

Lemma last_named_In ds name x : last_named ds name = Some x -> In x ds.
Proof. intros H. apply find_some in H as [H _]. apply in_rev in H. exact H. Qed.
Lemma at_path_fun contents inodes p k isd : at_path contents inodes p k isd -> forall k' isd', at_path contents inodes p k' isd' -> k = k' /\ isd = isd'.
Proof.
  induction 1 as [|p o d name x H IH HN HX]; intros k' isd' H'.
  - inversion H' as [E1 E2 E3|p' o' d' name' x' A B C E]; [auto|]. destruct p'; discriminate.
  - inversion H' as [E1 E2 E3|p' o' d' name' x' A B C E]; [destruct p; discriminate|]. apply app_inj_tail in E as [-> ->]. destruct (IH _ _ A) as [E _]. injection E as -> ->. assert (x = x') by congruence. subst x'. auto.
Qed.

Section Any.
  Variables (q qi : queries) (D : list byte) (dev : readerAt) (contents : listing) (inodes : inode_table).
  Hypothesis HQ : forall o i, reach contents o i -> q_dirItems qi o i = q_dirItems q o i /\ q_inode qi o i = q_inode q o i /\ q_extents qi o i = q_extents q o i /\ q_extent0 qi o i = q_extent0 q o i.
  Hypothesis HPh : forall l p, q_physical q l = Ok p -> q_physical qi l = Ok p.
  Hypothesis HH : holds q contents inodes.
  Hypothesis HDv : reads_from D dev.
  Hypothesis HDl : zlen D < 2^63.

  Lemma holds_i : holds qi contents inodes.
  Proof.
    intros o i HR. destruct (HH o i HR) as [H1 H2]. destruct (HQ o i HR) as (Q1 & Q2 & _). split; [unfold dir_holds; rewrite Q1; exact H1|]. destruct (inodes o i) as [x|]; [|congruence]. destruct H2 as (ii & A & B). exists ii. split; [congruence|exact B].
  Qed.
  Lemma getattr_any o i n : reach contents o i -> served qi o i n -> exists n', GetAttr qi n = Ok (n', fst (attr_answer inodes (o, i)), snd (attr_answer inodes (o, i))).
  Proof.
    intros HR HS. destruct (holds_i o i HR) as [_ H]. unfold attr_answer. cbn [fst snd]. destruct (inodes o i) as [x|]; cbn [fst snd].
    - exact (C55_attributes qi o i n x HS H).
    - exact (proj2 (C55_enoattr qi o i n HS) H).
  Qed.
  Lemma lookup_any o i n name : reach contents o i -> served qi o i n ->
    match last_named (contents o i) name with
    | None => exists n', Lookup qi n name = Ok (n', None, None, ENOENT)
    | Some x => let k := leads_to o x in exists n' c, Lookup qi n name = Ok (n', Some (c, di_type x =? 2), fst (attr_answer inodes k), snd (attr_answer inodes k)) /\ reach contents (fst k) (snd k) /\ served qi (fst k) (snd k) c
    end.
  Proof.
    intros HR HS. destruct (holds_i o i HR) as [HD _]. destruct (dir_state _ _ _ _ _ HS HD) as (n' & HE & HO & HIn & _ & HG). specialize (HG name). unfold Lookup. rewrite HE. cbn [rbind]. destruct (last_named (contents o i) name) as [d|] eqn:EL.
    - pose proof (reach_entry contents o i d HR (last_named_In _ _ _ EL)) as HRc. cbv zeta. destruct HG as (s & G1 & G2 & _). destruct (C06_dir_item d s G2) as (L1 & _ & _ & _ & _ & L2 & L3). rewrite G1. unfold child_of. rewrite L3. cbn [rbind]. rewrite L1. cbn [rbind]. rewrite HO. cbn [ObjectID]. change FirstFreeObjectID with 256.
      replace (if k_type (di_location d) =? 132 then (k_objectid (di_location d), 256) else (o, k_objectid (di_location d))) with (leads_to o d) by reflexivity.
      destruct (leads_to o d) as [o' i']. cbn [fst snd] in *. rewrite L2. cbn [rbind]. destruct (getattr_any o' i' (newRescueNode o' i') HRc (served_new _ _ _)) as (c & HA). rewrite HA. cbn [rbind]. exists n', c. split; [reflexivity|]. split; [exact HRc|exact (served_getattr qi o' i' _ _ _ _ (served_new _ _ _) HA)].
    - rewrite HG. exists n'. reflexivity.
  Qed.
  Lemma extents_i l xs : Forall2 (is_extent q) l xs -> Forall2 (is_extent qi) l xs.
  Proof.
    induction 1 as [|[k e] y l ys HE _ IH]; constructor; [|exact IH]. destruct HE as [A|[A|(t & m & nr & id & ph & eo & A1 & A2 & A3 & A4 & A5 & A6 & A7 & A8)]]; [left; exact A|right; left; exact A|right; right]. exists t, m, nr, id, ph, eo. apply HPh in A6. auto 10.
  Qed.
  Lemma view_any o i n : reach contents o i -> served qi o i n -> shows_key q qi D dev contents inodes n.
  Proof.
    intros HR HS. pose proof (served_inv _ _ _ _ HS) as (H1 & H2 & _). destruct (HQ o i HR) as (Q1 & Q2 & Q3 & Q4). destruct (holds_i o i HR) as [HD HI]. unfold shows_key. rewrite H1, H2. cbv zeta.
    split; [exact (getattr_any o i n HR HS)|]. split; [|split; [|split; [|split; [|split]]]].
    - intros ord HO. destruct (C54_listing qi o i _ n ord HS HD HO) as (n' & es & A1 & A2 & _ & A3). exists n', es. auto.
    - intros name. pose proof (lookup_any o i n name HR HS) as HL. destruct (last_named (contents o i) name) as [x|]; [|exact HL]. cbv zeta in *. destruct HL as (n' & c & L1 & _ & L2). exists n', c. split; [exact L1|]. pose proof (served_inv _ _ _ _ L2) as (C1 & C2 & _). rewrite C1, C2, <- surjective_pairing. reflexivity.
    - intros c xs x HX HF HXs HG HRd. rewrite HX in HI. assert (HFi : file_shows qi D o i c). { destruct HF as (ys & it & F1 & F2 & F3 & F4 & F5). exists ys, it. split; [rewrite Q3; apply extents_i; exact F1|]. split; [exact F2|]. split; [congruence|]. split; [congruence|exact F5]. }
      assert (HXi : Forall2 (is_extent qi) (st_items (q_extents qi o i)) xs) by (rewrite Q3; apply extents_i; exact HXs).
      exact (file_view qi D dev o i n c xs x HS HFi HI HXi HG HDv HRd HDl).
    - intros HE HF. unfold Open. rewrite H1, H2, Q3, HE, HF. reflexivity.
    - intros t (e & L1 & L2 & L3) (e' & L4 & L5). assert (e' = e) by congruence. subst e'. unfold Readlink. rewrite H1, H2, Q4, L1. cbn [rbind]. unfold FileExtentItem_IsInline. rewrite L5. cbn [rbind]. change (0 =? FileExtentInline) with true. cbv iota.
      destruct L2 as [[_ L2]|(ty & _ & _ & _ & _ & _ & L2 & L6 & _)]; [rewrite L2; reflexivity|congruence].
    - intros HN. unfold Readlink. rewrite H1, H2, Q4, HN. reflexivity.
  Qed.

  (** ** sessions *)
  Definition entry_any (x : cpath * bool * node_state) : Prop :=
    let '(p, isd, n) := x in exists o i, reach contents o i /\ served qi o i n /\ at_path contents inodes p (o, i) isd.
  Lemma answer_ok k : snd (attr_answer inodes k) = OK -> inodes (fst k) (snd k) <> None.
  Proof. unfold attr_answer. destruct (inodes (fst k) (snd k)); [discriminate|]. intros H. discriminate H. Qed.
  Lemma lookup_entry_any p n name n' c isd a : entry_any (p, true, n) -> Lookup qi n name = Ok (n', Some (c, isd), a, OK) -> entry_any (p ++ [name], isd, c).
  Proof.
    intros (o & i & A1 & A2 & A3) HL. pose proof (lookup_any o i n name A1 A2) as HK. destruct (last_named (contents o i) name) as [x|] eqn:EN.
    - cbv zeta in HK. destruct HK as (n2 & c2 & K1 & K2 & K3). rewrite HL in K1. assert (E : c2 = c /\ isd = (di_type x =? 2) /\ snd (attr_answer inodes (leads_to o x)) = OK) by (split; [congruence|split; congruence]). destruct E as (-> & -> & E).
      exists (fst (leads_to o x)), (snd (leads_to o x)). split; [exact K2|]. split; [exact K3|]. rewrite <- surjective_pairing. exact (at_entry contents inodes p o i name x A3 EN (answer_ok _ E)).
    - destruct HK as (n2 & HK). rewrite HL in HK. discriminate.
  Qed.
  Lemma session_any T : session qi T -> Forall entry_any T.
  Proof.
    intros H. induction H as [|T1 p n T2 name n' c isd a _ IH HL|T1 p n T2 name n' c a st _ IH HL HS|T1 p n T2 ord n' es _ IH HL|T1 p isd n T2 n' a st _ IH HL|T1 x T2 _ IH].
    - constructor; [|constructor]. exists FSTreeObjectID, FirstFreeObjectID. split; [apply reach_top|]. split; [apply served_new|apply at_top].
    - apply Forall_app in IH as [I1 I2]. inversion I2 as [|? ? I3 I4]; subst. apply Forall_app. split; [exact I1|]. constructor; [|apply Forall_app; split; [exact I4|constructor; [exact (lookup_entry_any _ _ _ _ _ _ _ I3 HL)|constructor]]].
      destruct I3 as (o & i & A1 & A2 & A3). exists o, i. split; [exact A1|]. split; [exact (served_lookup qi o i n name _ _ _ _ A2 HL)|exact A3].
    - apply Forall_app in IH as [I1 I2]. inversion I2 as [|? ? I3 I4]; subst. destruct I3 as (o & i & A1 & A2 & A3). apply Forall_app. split; [exact I1|]. constructor; [|exact I4]. exists o, i. split; [exact A1|]. split; [|exact A3]. exact (served_lookup qi o i n name _ _ _ _ A2 HL).
    - apply Forall_app in IH as [I1 I2]. inversion I2 as [|? ? I3 I4]; subst. destruct I3 as (o & i & A1 & A2 & A3). apply Forall_app. split; [exact I1|]. constructor; [|exact I4]. exists o, i. split; [exact A1|]. split; [|exact A3]. exact (served_opendir qi o i n ord _ _ A2 HL).
    - apply Forall_app in IH as [I1 I2]. inversion I2 as [|? ? I3 I4]; subst. destruct I3 as (o & i & A1 & A2 & A3). apply Forall_app. split; [exact I1|]. constructor; [|exact I4]. exists o, i. split; [exact A1|]. split; [|exact A3]. exact (served_getattr qi o i n _ _ _ A2 HL).
    - apply Forall_app in IH as [I1 I2]. inversion I2; subst. apply Forall_app. split; assumption.
  Qed.
  Lemma known_any p k isd : at_path contents inodes p k isd -> reach contents (fst k) (snd k) /\
    forall T, session qi T -> (exists n, In ([], true, n) T) -> exists T' n, session qi T' /\ incl (map fst T) (map fst T') /\ In (p, isd, n) T' /\ served qi (fst k) (snd k) n.
  Proof.
    induction 1 as [|p o d name x HA [IH1 IH2] HN HI].
    - split; [apply reach_top|]. intros T HT [n Hn]. exists T, n. split; [exact HT|]. split; [apply incl_refl|]. split; [exact Hn|]. pose proof (session_any T HT) as HF. rewrite Forall_forall in HF. destruct (HF _ Hn) as (o & i & _ & A4 & A6).
      destruct (at_path_fun _ _ _ _ _ (at_top contents inodes) _ _ A6) as [E _]. rewrite E. exact A4.
    - cbn [fst snd] in *. split; [exact (reach_entry contents o d x IH1 (last_named_In _ _ _ HN))|]. intros T HT HRt. destruct (IH2 T HT HRt) as (T' & n & S1 & S2 & S3 & S4).
      pose proof (lookup_any o d n name IH1 S4) as HK. rewrite HN in HK. cbv zeta in HK. destruct HK as (n' & c & L1 & _ & L2). unfold attr_answer in L1. destruct (inodes (fst (leads_to o x)) (snd (leads_to o x))) as [y|] eqn:EI; [|congruence]. cbn [fst snd] in L1.
      apply in_split in S3 as (Ta & Tb & ->). exists (Ta ++ (p, true, n') :: Tb ++ [(p ++ [name], di_type x =? 2, c)]), c. split; [exact (ses_found qi Ta p n Tb name n' c _ _ S1 L1)|]. split; [|split; [|exact L2]].
      + intros y' Hy. specialize (S2 y' Hy). rewrite !map_app in *. cbn [map fst] in *. rewrite map_app. apply in_app_or in S2 as [S2|[S2|S2]]; apply in_or_app; [left; exact S2|right; left; exact S2|right; right; apply in_or_app; left; exact S2].
      + apply in_or_app. right. right. apply in_or_app. right. left. reflexivity.
  Qed.
  Lemma mounted_any :
    (forall T p isd n, session qi T -> In (p, isd, n) T -> at_path contents inodes p (n_owner n, n_inode n) isd /\ shows_key q qi D dev contents inodes n) /\
    (forall T p k isd, session qi T -> (exists n, In ([], true, n) T) -> at_path contents inodes p k isd ->
       exists T' n, session qi T' /\ incl (map fst T) (map fst T') /\ In (p, isd, n) T' /\ (n_owner n, n_inode n) = k).
  Proof.
    split.
    - intros T p isd n HS HI. pose proof (session_any T HS) as HF. rewrite Forall_forall in HF. destruct (HF _ HI) as (o & i & A1 & A2 & A3). pose proof (view_any o i n A1 A2) as V. pose proof (served_inv _ _ _ _ A2) as (H1 & H2 & _). rewrite H1, H2. auto.
    - intros T p k isd HS HI HA. destruct (known_any p k isd HA) as [_ H]. destruct (H T HS HI) as (T' & n & S1 & S2 & S3 & S4). exists T', n. pose proof (served_inv _ _ _ _ S4) as (H1 & H2 & _). rewrite H1, H2, <- surjective_pairing. auto.
  Qed.
End Any.

(** C83.  Whatever was asked before: every path the kernel knows stands for the inode the directory items lead to, and its node
    answers every request as the index demands; everything that directory items lead to can be looked up. *)
Theorem C83_mounted_index : forall q D dev contents inodes, holds q contents inodes -> reads_from D dev -> zlen D < 2^63 ->
  (forall T p isd n, session q T -> In (p, isd, n) T -> at_path contents inodes p (n_owner n, n_inode n) isd /\ shows_key q q D dev contents inodes n) /\
  (forall T p k isd, session q T -> (exists n, In ([], true, n) T) -> at_path contents inodes p k isd ->
     exists T' n, session q T' /\ incl (map fst T) (map fst T') /\ In (p, isd, n) T' /\ (n_owner n, n_inode n) = k).
Proof. intros. apply mounted_any; auto. Qed.
Print Assumptions C83_mounted_index.

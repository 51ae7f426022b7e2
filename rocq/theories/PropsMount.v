(** C70: the mounted file system shows the tree that recover restores. *)
From Verif Require Import Go GoProofs Layout LayoutProofs SpecLayout StructProofs PropsLayout KeyFmt IoUtil Path Fs Recover SpecFs SpecContent SpecTree Conc PropsConc Rescue PropsRescueRead PropsRescueNode SpecMount.
From Verif Require TreeRun PropsRecoverDfs PropsRecoverFile.
From Coq Require Import List Permutation ZifyBool ZifyNat ZifyN.

(** ** extents are functions of the items *)
Lemma extent_one q ke x y : is_extent q ke x -> is_extent q ke y -> x = y.
Proof.
  destruct ke as [k e]. unfold is_extent. intros [(d & A1 & A2 & ->)|[(t & n & A1 & A2 & A3 & A4 & ->)|(t & n & nr & id & ph & o & A1 & A2 & A3 & A4 & A5 & A6 & A7 & ->)]];
  intros [(d' & B1 & B2 & ->)|[(t' & n' & B1 & B2 & B3 & B4 & ->)|(t' & n' & nr' & id' & ph' & o' & B1 & B2 & B3 & B4 & B5 & B6 & B7 & ->)]]; try congruence.
Qed.
Lemma extents_one q l xs : Forall2 (is_extent q) l xs -> forall ys, Forall2 (is_extent q) l ys -> xs = ys.
Proof. induction 1 as [|ke x l xs HX _ IH]; intros ys HY; inversion HY; subst; [reflexivity|]. f_equal; [eapply extent_one; eassumption|apply IH; assumption]. Qed.
Lemma inode_one q o i x y : has_inode q o i x -> has_inode q o i y -> in_size x = in_size y.
Proof.
  intros (ii & A1 & A2 & A3) (jj & B1 & B2 & B3). assert (jj = ii) by congruence. subst jj. destruct (C06_inode_item x ii A2 A3) as (_ & _ & E1 & _). destruct (C06_inode_item y ii B2 B3) as (_ & _ & E2 & _). congruence.
Qed.

(** ** nodes *)
Definition node_is (q : queries) (D : list byte) (o i : Z) (t : tree) : Prop :=
  exists x, has_inode q o i x /\
  match t with
  | TDir kids => exists ks, dir_shows q D o i kids ks /\ mountable q ks
  | TFile c => file_shows q D o i c /\ exists xs, Forall2 (is_extent q) (st_items (q_extents q o i)) xs /\ gapless xs (in_size x)
  | TLink l => link_shows q D o i l /\ exists e, q_extent0 q o i = Ok (Some e) /\ FileExtentItem_Type e = Ok 0
  end.
(** an item of a directory and the entry it stands for *)
Definition entry_is (q : queries) (D : list byte) (o : Z) (e : list byte * slice) (k : list byte * tree) : Prop :=
  DirItem_Name (snd e) = Ok (fst k) /\ exists loc, DirItem_Location (snd e) = Ok loc /\ DirItem_Type (snd e) <> Panic /\ DirItem_IsDir (snd e) = Ok (is_tdir (snd k)) /\
    node_is q D (fst (child_key o loc)) (snd (child_key o loc)) (snd k).
Lemma key_sub o loc : KType loc = RootItemKey -> child_key o loc = (ObjectID loc, FirstFreeObjectID).
Proof. intros H. unfold child_key. rewrite H. reflexivity. Qed.
Lemma key_same o loc : KType loc <> RootItemKey -> child_key o loc = (o, ObjectID loc).
Proof. intros H. unfold child_key. replace (KType loc =? RootItemKey) with false by lia. reflexivity. Qed.
Lemma entries_are q D : forall o l kids ks, list_shows q D o l kids ks -> (forall e, In e l -> mountable_item q o (snd e)) -> mountable q ks ->
  Forall2 (entry_is q D o) l kids /\ NoDup (map fst kids).
Proof.
  intros o l kids ks H. induction H as [o|o k di l n loc c kids ks HS HT HF HN HI _ IH|o k di l n loc t kids ks HS HT HF HN HI _ IH|o k di l n o' d' sub kids ks1 ks2 HN ND HD HK HI _ IH|o k di l n t loc kids ks HS HT T1 T2 T3 _ IH]; intros HM HKs.
  - split; constructor.
  - destruct IH as [I1 I2]; [intros e He; apply HM; right; exact He|exact HKs|]. split; [|cbn [map fst]; constructor; assumption]. constructor; [|exact I1].
    destruct HS as (S1 & S2 & S3). destruct (HM (k, di) (or_introl eq_refl)) as (t & loc' & x & M1 & M2 & M3 & M4). cbn [snd] in *. assert (loc' = loc) by congruence. subst loc'. assert (t = FtRegFile) by congruence. subst t.
    split; [exact S1|]. exists loc. cbn [fst snd] in *. split; [exact S3|]. split; [rewrite S2; discriminate|]. split; [unfold DirItem_IsDir; rewrite S2; reflexivity|]. rewrite (key_same o loc HT) in *. cbn [fst snd] in *.
    exists x. split; [exact M3|]. split; [exact HF|]. destruct M4 as [M4|[(_ & _ & M4)|(_ & M4 & _)]]; [discriminate|exact M4|discriminate].
  - destruct IH as [I1 I2]; [intros e He; apply HM; right; exact He|exact HKs|]. split; [|cbn [map fst]; constructor; assumption]. constructor; [|exact I1].
    destruct HS as (S1 & S2 & S3). destruct (HM (k, di) (or_introl eq_refl)) as (ty & loc' & x & M1 & M2 & M3 & M4). cbn [snd] in *. assert (loc' = loc) by congruence. subst loc'. assert (ty = FtSymlink) by congruence. subst ty.
    split; [exact S1|]. exists loc. cbn [fst snd] in *. split; [exact S3|]. split; [rewrite S2; discriminate|]. split; [unfold DirItem_IsDir; rewrite S2; reflexivity|]. rewrite (key_same o loc HT) in *. cbn [fst snd] in *.
    exists x. split; [exact M3|]. split; [exact HF|]. destruct M4 as [M4|[(_ & M4 & _)|(_ & _ & M4)]]; [discriminate|discriminate|exact M4].
  - assert (K1 : mountable q ks1) by (intros o1 d1 Hin; apply HKs, in_or_app; left; exact Hin). assert (K2 : mountable q ks2) by (intros o1 d1 Hin; apply HKs, in_or_app; right; exact Hin).
    destruct IH as [I1 I2]; [intros e He; apply HM; right; exact He|exact K2|]. split; [|cbn [map fst]; constructor; assumption]. constructor; [|exact I1].
    destruct ND as (nm & t & loc & S1 & S2 & S3 & S4 & S5). destruct (HM (k, di) (or_introl eq_refl)) as (ty & loc' & x & M1 & M2 & M3 & M4). cbn [snd] in *. assert (loc' = loc) by congruence. subst loc'. assert (ty = t) by congruence. subst ty.
    assert (ET : t = FtDir /\ child_key o loc = (o', d')).
    { destruct S5 as [[S5 S6]|(S5 & S6 & S7)]; [|split; [exact S6|rewrite (key_same o loc S5); symmetry; exact S7]]. split; [|rewrite (key_sub o loc S5); symmetry; exact S6]. destruct M4 as [M4|[(M4 & _)|(M4 & _)]]; congruence. }
    destruct ET as [-> EK]. split; [exact HN|]. exists loc. cbn [fst snd] in *. split; [exact S4|]. split; [rewrite S3; discriminate|]. split; [unfold DirItem_IsDir; rewrite S3; reflexivity|].
    rewrite EK in *. cbn [fst snd] in *. exists x. split; [exact M3|]. exists ks1. split; [exact HD|exact K1].
  - exfalso. destruct HS as (S1 & S2 & S3). destruct (HM (k, di) (or_introl eq_refl)) as (ty & loc' & x & M1 & M2 & M3 & M4). cbn [snd] in *. assert (ty = t) by congruence. subst ty. destruct M4 as [M4|[(_ & M4 & _)|(_ & M4 & _)]]; congruence.
Qed.

(** ** the directory map *)
Definition kmap (l : list (list byte * slice)) (kids : entries) : dirmap := map (fun p => (fst (snd p), snd (fst p))) (combine l kids).
Lemma mset_new m n d : ~ In n (map fst m) -> mset m n d = m ++ [(n, d)].
Proof.
  induction m as [|[a y] m IH]; [reflexivity|]. cbn [map fst In mset app]. intros H. destruct (bytes_eqb a n) eqn:E; [apply bytes_eqb_eq in E; tauto|]. rewrite IH by tauto. reflexivity.
Qed.
Lemma fill_kmap q D o l kids : Forall2 (entry_is q D o) l kids -> forall m, NoDup (map fst m ++ map fst kids) -> fill_dir l (Ok tt) m = Ok (m ++ kmap l kids).
Proof.
  induction 1 as [|[k s] [n t] l kids [HE _] _ IH]; intros m HN; [rewrite app_nil_r; reflexivity|]. cbn [fill_dir fst snd map] in *. rewrite HE. cbn [rbind]. rewrite mset_new.
  - rewrite IH; [unfold kmap; cbn [combine map fst snd]; rewrite <- app_assoc; reflexivity|]. rewrite map_app. cbn [map fst]. rewrite <- app_assoc. exact HN.
  - apply NoDup_remove_2 in HN. intros H. apply HN, in_or_app. left. exact H.
Qed.
Lemma dir_state_k q D o i kids ks n : served q o i n -> dir_shows q D o i kids ks -> mountable q ks ->
  exists n' l, ensureDirItems q n = Ok n' /\ served q o i n' /\ n_owner n' = o /\ n_dir n' = kmap l kids /\ Forall2 (entry_is q D o) l kids /\ NoDup (map fst kids).
Proof.
  intros HS HD HM. inversion HD as [? ? ? ks' HE HL E1 E2 E3 E4]; subst. assert (HM' : mountable q ks') by (intros o1 d1 Hin; apply HM; right; exact Hin).
  destruct (entries_are q D _ _ _ _ HL (proj2 (HM o i (or_introl eq_refl))) HM') as [HF HN]. pose proof (fill_kmap q D o _ _ HF [] HN) as HK. cbn [app] in HK. rewrite <- HE in HK.
  pose proof (served_inv _ _ _ _ HS) as (H1 & H2 & H3 & H4). exists (set_dir n (kmap (st_items (q_dirItems q o i)) kids)), (st_items (q_dirItems q o i)).
  assert (EN : ensureDirItems q n = Ok (set_dir n (kmap (st_items (q_dirItems q o i)) kids))).
  { unfold ensureDirItems. destruct (0 <? zlen (n_dir n)) eqn:EZ.
    - destruct H4 as [H4|H4]; [rewrite H4 in EZ; discriminate|]. rewrite HK in H4. assert (H4' : n_dir n = kmap (st_items (q_dirItems q o i)) kids) by congruence. rewrite <- H4'. destruct n; reflexivity.
    - assert (HZ : n_dir n = []) by (destruct (n_dir n); [reflexivity|unfold zlen in EZ; cbn [length] in EZ; lia]). rewrite H1, H2, HZ. cbv zeta. rewrite HK. reflexivity. }
  split; [exact EN|]. split; [|split; [exact H1|split; [reflexivity|split; [exact HF|exact HN]]]].
  apply (served_opendir q o i n (fun _ => []) _ []); [exact HS|]. unfold OpenDir. rewrite EN. reflexivity.
Qed.
Lemma mget_kmap q D o l kids name : Forall2 (entry_is q D o) l kids ->
  match pick kids name with
  | None => mget (kmap l kids) name = None
  | Some t => exists e, mget (kmap l kids) name = Some (snd e) /\ entry_is q D o e (name, t)
  end.
Proof.
  induction 1 as [|[k s] [n t] l kids HE _ IH]; [reflexivity|]. cbn [pick]. unfold kmap. cbn [combine map fst snd]. rewrite mget_cons. destruct (list_eq_dec Byte.byte_eq_dec n name) as [->|HN].
  - exists (k, s). rewrite (proj2 (bytes_eqb_eq name name) eq_refl). auto.
  - replace (bytes_eqb n name) with false; [exact IH|]. symmetry. destruct (bytes_eqb n name) eqn:EB; [apply bytes_eqb_eq in EB; congruence|reflexivity].
Qed.
Definition g_entry (x : list byte * slice) : list byte * Z := (fst x, match DirItem_IsDir (snd x) with Ok true => S_IFDIR | _ => S_IFREG end).
Lemma entries_map m : (forall x, In x m -> DirItem_Name (snd x) = Ok (fst x) /\ exists b, DirItem_IsDir (snd x) = Ok b) -> dir_entries m = Ok (map g_entry m).
Proof.
  induction m as [|[n s] m IH]; intros H; [reflexivity|]. cbn [dir_entries map]. destruct (H (n, s) (or_introl eq_refl)) as (H1 & b & H2). cbn [fst snd] in *. rewrite H1. cbn [rbind]. rewrite H2. cbn [rbind].
  rewrite IH by (intros x Hx; apply H; right; exact Hx). cbn [rbind]. unfold g_entry at 2. cbn [fst snd]. rewrite H2. destruct b; reflexivity.
Qed.
Lemma kmap_entries q D o l kids : Forall2 (entry_is q D o) l kids -> (forall x, In x (kmap l kids) -> DirItem_Name (snd x) = Ok (fst x) /\ exists b, DirItem_IsDir (snd x) = Ok b) /\
  map g_entry (kmap l kids) = map (fun k => (fst k, list_mode (snd k))) kids.
Proof.
  induction 1 as [|[k s] [n t] l kids HE _ [IH1 IH2]]; [split; [intros x []|reflexivity]|]. unfold kmap. cbn [combine map fst snd]. destruct HE as (H1 & loc & _ & _ & H2 & _). cbn [fst snd] in *. split.
  - intros x [<-|Hx]; [|apply IH1; exact Hx]. cbn [fst snd]. split; [exact H1|eexists; exact H2].
  - f_equal; [|exact IH2]. unfold g_entry, list_mode. cbn [fst snd]. rewrite H2. destruct (is_tdir t); reflexivity.
Qed.

(** ** requests *)
Lemma lookup_child q D o i kids ks n name t : served q o i n -> dir_shows q D o i kids ks -> mountable q ks -> pick kids name = Some t ->
  exists n' c a o' i', Lookup q n name = Ok (n', Some (c, is_tdir t), Some a, OK) /\ served q o' i' c /\ node_is q D o' i' t.
Proof.
  intros HS HD HM HP. destruct (dir_state_k q D o i kids ks n HS HD HM) as (n' & l & E1 & _ & E2 & E3 & HF & _). pose proof (mget_kmap q D o l kids name HF) as HG. rewrite HP in HG. destruct HG as (e & G1 & G2 & loc & G3 & _ & G4 & G5). cbn [fst snd] in *.
  unfold Lookup. rewrite E1. cbn [rbind]. rewrite E3, G1. unfold child_of, DirItem_IsSubvolume. rewrite G3. cbn [rbind]. rewrite E2.
  replace (if KType loc =? RootItemKey then (ObjectID loc, FirstFreeObjectID) else (o, ObjectID loc)) with (child_key o loc) by reflexivity. destruct (child_key o loc) as [o' i'] eqn:EK. cbn [fst snd] in *. rewrite G4. cbn [rbind].
  destruct G5 as (x & HX & HR). destruct (C55_attributes q o' i' (newRescueNode o' i') x (served_new _ _ _) HX) as (c & HA). rewrite HA. cbn [rbind]. exists n', c, (attr_of i' x), o', i'. split; [reflexivity|].
  split; [apply (served_getattr q o' i' _ _ _ _ (served_new _ _ _) HA)|]. exists x. split; [exact HX|exact HR].
Qed.
Lemma lookup_none q D o i kids ks n name : served q o i n -> dir_shows q D o i kids ks -> mountable q ks -> pick kids name = None -> exists n', Lookup q n name = Ok (n', None, None, ENOENT).
Proof.
  intros HS HD HM HP. destruct (dir_state_k q D o i kids ks n HS HD HM) as (n' & l & E1 & _ & E2 & E3 & HF & _). pose proof (mget_kmap q D o l kids name HF) as HG. rewrite HP in HG.
  unfold Lookup. rewrite E1. cbn [rbind]. rewrite E3, HG. exists n'. reflexivity.
Qed.

(** ** reading on *)
Lemma skipn_byte (c : list byte) g : (length g <= length c)%nat -> (forall j, 0 <= j < zlen g -> byte_at g j = byte_at c j) -> g = firstn (length g) c.
Proof.
  intros HL H. apply nth_ext with (d := x00) (d' := x00); [rewrite firstn_length; lia|]. intros j Hj. specialize (H (Z.of_nat j)). unfold byte_at, zlen in H. rewrite Nat2Z.id in H. rewrite H by lia.
  symmetry. rewrite <- (firstn_skipn (length g) c) at 2. rewrite app_nth1; [reflexivity|rewrite firstn_length; lia].
Qed.
Lemma read_on_ok dev f buf c : 0 < zlen buf ->
  (forall off, 0 <= off < zlen c -> exists d, file_Read dev f buf off = Ok (d, OK) /\ 0 < zlen d /\ forall i, 0 <= i < zlen d -> off + i < zlen c -> byte_at d i = byte_at c (off + i)) ->
  forall fuel got, zlen c - zlen got <= Z.of_nat fuel -> (forall j, 0 <= j < zlen got -> j < zlen c -> byte_at got j = byte_at c j) -> read_on fuel dev f buf (zlen c) got = Some c.
Proof.
  intros HB HR. assert (HD : forall got, zlen c <= zlen got -> (forall j, 0 <= j < zlen got -> j < zlen c -> byte_at got j = byte_at c j) -> firstn (Z.to_nat (zlen c)) got = c).
  { intros got HL H. assert (E : length (firstn (Z.to_nat (zlen c)) got) = length c) by (rewrite firstn_length; unfold zlen in *; lia).
    rewrite (skipn_byte c (firstn (Z.to_nat (zlen c)) got)); [rewrite E; apply firstn_all|rewrite E; apply Nat.le_refl|]. intros j Hj. rewrite PropsRecoverFile.byte_at_firstn by (unfold zlen in *; lia). apply H; unfold zlen in *; lia. }
  induction fuel as [|fuel IH]; intros got HL HG; cbn [read_on]; (destruct (zlen c <=? zlen got) eqn:EZ; [rewrite HD; [reflexivity|lia|exact HG]|]); [lia|].
  pose proof (zlen_nonneg got). destruct (HR (zlen got)) as (d & R1 & R2 & R3); [lia|]. rewrite R1. apply IH; [rewrite zlen_app; lia|].
  intros j Hj Hc. rewrite zlen_app in Hj. unfold byte_at. destruct (Z.lt_ge_cases j (zlen got)) as [HJ|HJ].
  - rewrite app_nth1 by (unfold zlen in *; lia). apply HG; lia.
  - rewrite app_nth2 by (unfold zlen in *; lia). replace (Z.to_nat j - length got)%nat with (Z.to_nat (j - zlen got)) by (unfold zlen in *; lia). specialize (R3 (j - zlen got)). unfold byte_at in R3. rewrite R3 by lia. f_equal. lia.
Qed.
Lemma file_view q D dev o i n c xs x : served q o i n -> file_shows q D o i c -> has_inode q o i x -> Forall2 (is_extent q) (st_items (q_extents q o i)) xs -> gapless xs (in_size x) ->
  reads_from D dev -> Forall (ext_readable dev) xs -> zlen D < 2^63 ->
  in_size x = zlen c /\ exists f, Open q n = Ok (Some f, OK) /\ forall buf, buf <> [] -> zlen c + zlen buf < 2^63 -> exists fuel, read_on fuel (Reader dev) f buf (zlen c) [] = Some c.
Proof.
  intros HS (ys & it & F1 & F2 & F3 & F4 & F5 & F6 & F7) HX HXs HG HDv HRd HDl. rewrite <- (extents_one q _ _ HXs _ F1) in *. clear ys F1.
  assert (ES : in_size x = zlen c). { destruct HX as (ii & A1 & A2 & A3). assert (ii = it) by congruence. subst ii. destruct (C06_inode_item x it A2 A3) as (_ & _ & E1 & _). congruence. } split; [exact ES|]. rewrite ES in HG.
  pose proof (served_inv _ _ _ _ HS) as (H1 & H2 & _). destruct HG as [(d & -> & HL)|(HN & HI & fin & HC & HL)].
  - inversion HXs as [|ke ? l ? HE HXs' EL EX]; subst. inversion HXs'; subst. destruct ke as [k e]. destruct HE as [(d' & T1 & T2 & T3)|[(t & m & _ & _ & _ & _ & T)|(t & m & nr & id & ph & o & _ & _ & _ & _ & _ & _ & _ & T)]]; [|discriminate|discriminate]. injection T3 as E0 <-.
    assert (HO : exists f, Open q n = Ok (Some f, OK) /\ f = DataFile d). { exists (DataFile d). split; [|reflexivity]. unfold Open. rewrite <- EL. unfold FileExtentItem_IsInline. rewrite T1. cbn [rbind]. change (0 =? FileExtentInline) with true. cbv iota. rewrite T2. reflexivity. }
    destruct HO as (f & HO & Ef). exists f. split; [exact HO|]. intros buf HBn HBl. assert (HB : 0 < zlen buf) by (destruct buf; [congruence|rewrite zlen_cons; pose proof (zlen_nonneg buf); lia]). exists (Z.to_nat (zlen c)). apply read_on_ok; [exact HB| |unfold zlen at 2; cbn [length]; lia|intros j Hj; unfold zlen in Hj; cbn [length] in Hj; lia].
    intros off Hoff. destruct (C53_inline_partial (Reader dev) q n k e d buf off) as (f' & O1 & O2); [symmetry; exact EL|exact T1|exact T2|lia|lia|]. rewrite HO in O1. injection O1 as <-. eexists. split; [exact O2|].
    set (r := firstn (length buf) (skipn (Z.to_nat off) d)). assert (HLr : zlen r = Z.min (zlen buf) (zlen d - off)). { unfold r, zlen in *. rewrite firstn_length, skipn_length. lia. } split; [lia|].
    intros j Hj Hc. unfold r. replace (length buf) with (Z.to_nat (zlen buf)) by (unfold zlen; lia). rewrite PropsRecoverFile.byte_at_firstn by (unfold zlen in *; lia). unfold byte_at at 1. rewrite nth_skipn'. rewrite F7 by lia. unfold file_byte. cbn [rev app List.find]. unfold covers. cbn [ext_off ext_len]. replace ((0 <=? off + j) && (off + j <? 0 + zlen d)) with true by lia. cbn [ext_byte]. unfold byte_at. f_equal. lia.
  - assert (HFin : fin < 2^63).
    { destruct (chain_range _ _ _ HC) as [_ _]. clear -HN HC F2. assert (G : forall a, chain a xs fin -> xs <> [] -> exists y, In y xs /\ ext_off y + ext_len y = fin).
      { clear HC HN F2. induction xs as [|y xs IH]; intros a HC HN; [congruence|]. cbn [chain] in HC. destruct HC as (<- & _ & HC). destruct xs as [|z xs]; [exists y; split; [left; reflexivity|exact HC]|]. destruct (IH _ HC ltac:(discriminate)) as (w & W1 & W2). exists w. split; [right; exact W1|exact W2]. }
      destruct (G 0 HC HN) as (y & Y1 & Y2). rewrite Forall_forall in F2. destruct (F2 y Y1) as [Y3 _]. lia. }
    assert (HOD : Forall (on_device D) xs). { apply Forall_forall. intros y Hy. rewrite Forall_forall in F2. destruct (F2 y Hy) as [_ U]. destruct y; [exact Logic.I|exact Logic.I|exact U]. }
    assert (HXs' : Forall2 (is_extent q) (st_items (q_extents q (n_owner n) (n_inode n))) xs) by (rewrite H1, H2; exact HXs). assert (HE' : st_end (q_extents q (n_owner n) (n_inode n)) = Ok tt) by (rewrite H1, H2; exact F3).
    destruct (Open_extents q n xs HXs' HE' HN HI) as (m & HO & _). exists (ExtentFile m). split; [exact HO|]. intros buf HBn HBl. assert (HB : 0 < zlen buf) by (destruct buf; [congruence|rewrite zlen_cons; pose proof (zlen_nonneg buf); lia]). exists (Z.to_nat (zlen c)). apply read_on_ok; [exact HB| |unfold zlen at 2; cbn [length]; lia|intros j Hj; unfold zlen in Hj; cbn [length] in Hj; lia].
    intros off Hoff. destruct (C53_readable_partial dev D q n xs fin buf off HXs' HE' HN HI HC HFin HOD HDv HRd HDl ltac:(lia) ltac:(lia)) as (f & d & O1 & O2 & O3 & O4 & O5 & _). rewrite HO in O1. injection O1 as <-. exists d. split; [exact O2|]. split; [apply O5; lia|].
    intros j Hj Hc. rewrite O4 by exact Hj. symmetry. apply F7. lia.
Qed.
Lemma all_readable q D dev o i c xs : good_device D dev -> file_shows q D o i c -> Forall2 (is_extent q) (st_items (q_extents q o i)) xs -> Forall (ext_readable dev) xs.
Proof.
  intros HG (ys & it & F1 & F2 & _) HXs. rewrite <- (extents_one q _ _ HXs _ F1) in *. apply Forall_forall. intros x Hx. destruct x as [| |off k src]; cbn [ext_readable]; [exact Logic.I|exact Logic.I|].
  intros n b Hb Hn He. assert (HU : 0 <= src). { assert (HS : Forall srcs_ok xs) by (clear - HXs; induction HXs; constructor; [eapply is_extent_src; eassumption|assumption]). rewrite Forall_forall in HS. exact (proj1 (HS _ Hx)). }
  rewrite Forall_forall in F2. destruct (F2 _ Hx) as [_ HD']. apply (proj2 HG); lia.
Qed.
Lemma view q D dev o i n t : good_device D dev -> zlen D < 2^63 -> served q o i n -> node_is q D o i t -> shows_node q dev t n.
Proof.
  intros HDv HDl HS (x & HX & HT). pose proof (served_inv _ _ _ _ HS) as (H1 & H2 & _). destruct (C55_attributes q o i n x HS HX) as (n' & HA). unfold shows_node. rewrite H1, H2. destruct t as [c|l|kids].
  - destruct HT as (HF & xs & HXs & HG). destruct (file_view q D dev o i n c xs x HS HF HX HXs HG (proj1 HDv) (all_readable q D dev o i c xs HDv HF HXs) HDl) as [ES HO]. split; [exists n', x; auto|exact HO].
  - destruct HT as ((e & L1 & L2 & L3) & e' & L4 & L5). assert (e' = e) by congruence. subst e'. split; [exists n', x; auto|]. unfold Readlink. rewrite H1, H2, L1. cbn [rbind]. unfold FileExtentItem_IsInline. rewrite L5. cbn [rbind]. change (0 =? FileExtentInline) with true. cbv iota.
    destruct L2 as [[_ L2]|(ty & _ & _ & _ & _ & _ & L2 & L6 & _)]; [rewrite L2; reflexivity|congruence].
  - destruct HT as (ks & HD & HM). split; [exists n', x; auto|]. split.
    + intros ord HO. destruct (dir_state_k q D o i kids ks n HS HD HM) as (n1 & l & E1 & _ & E2 & E3 & HF & _). destruct (kmap_entries q D o l kids HF) as [K1 K2]. unfold OpenDir. rewrite E1. cbn [rbind]. rewrite E3.
      rewrite entries_map by (intros y Hy; apply K1; exact (Permutation_in _ (HO _) Hy)). cbn [rbind]. eexists. eexists. split; [reflexivity|]. rewrite <- K2. apply Permutation_map, HO.
    + intros name. destruct (pick kids name) as [t|] eqn:EP.
      * destruct (lookup_child q D o i kids ks n name t HS HD HM EP) as (n1 & c & a & o' & i' & L & _). exists n1, c, a. exact L.
      * exact (lookup_none q D o i kids ks n name HS HD HM EP).
Qed.

(** ** sessions *)
Lemma sub_snoc t r c kids t' : tree_sub t r = Some (TDir kids) -> pick kids c = Some t' -> tree_sub t (r ++ [c]) = Some t'.
Proof.
  revert t. induction r as [|x r IH]; intros t H HP; cbn [tree_sub app] in *; [injection H as ->; rewrite HP; reflexivity|]. destruct t as [| |ks]; try discriminate. destruct (pick ks x); [apply IH; assumption|discriminate].
Qed.
Definition entry_inv (q : queries) (D : list byte) (top : tree) (x : cpath * bool * node_state) : Prop :=
  let '(p, isd, n) := x in exists t o i, tree_sub top p = Some t /\ isd = is_tdir t /\ served q o i n /\ node_is q D o i t.
Lemma session_inv q D kids : node_is q D FSTreeObjectID FirstFreeObjectID (TDir kids) -> forall T, session q T -> Forall (entry_inv q D (TDir kids)) T.
Proof.
  intros HR T H. induction H as [|T1 p n T2 name n' c isd a _ IH HL|T1 p n T2 name n' c a st _ IH HL HS|T1 p n T2 ord n' es _ IH HL|T1 p isd n T2 n' a st _ IH HL|T1 x T2 _ IH].
  - constructor; [|constructor]. exists (TDir kids), FSTreeObjectID, FirstFreeObjectID. split; [reflexivity|]. split; [reflexivity|]. split; [apply served_new|exact HR].
  - apply Forall_app in IH as [I1 I2]. inversion I2 as [|? ? I3 I4]; subst. destruct I3 as (t & o & i & A1 & A2 & A3 & A4). destruct t as [| |kk]; try discriminate. destruct A4 as (x & HX & ks & HD & HM).
    apply Forall_app. split; [exact I1|]. constructor; [|apply Forall_app; split; [exact I4|constructor; [|constructor]]].
    + exists (TDir kk), o, i. split; [exact A1|]. split; [reflexivity|]. split; [exact (served_lookup q o i n name _ _ _ _ A3 HL)|]. exists x. split; [exact HX|]. exists ks. auto.
    + destruct (pick kk name) as [t|] eqn:EP.
      * destruct (lookup_child q D o i kk ks n name t A3 HD HM EP) as (n1 & c1 & a1 & o' & i' & L1 & L2 & L3). rewrite HL in L1. assert (E : c = c1 /\ isd = is_tdir t) by (split; congruence). destruct E as [-> ->].
        exists t, o', i'. split; [exact (sub_snoc _ _ _ _ _ A1 EP)|]. auto.
      * exfalso. destruct (lookup_none q D o i kk ks n name A3 HD HM EP) as (n1 & L1). rewrite HL in L1. discriminate.
  - apply Forall_app in IH as [I1 I2]. inversion I2 as [|? ? I3 I4]; subst. destruct I3 as (t & o & i & A1 & A2 & A3 & A4). apply Forall_app. split; [exact I1|]. constructor; [|exact I4]. exists t, o, i. split; [exact A1|]. split; [exact A2|]. split; [|exact A4]. exact (served_lookup q o i n name _ _ _ _ A3 HL).
  - apply Forall_app in IH as [I1 I2]. inversion I2 as [|? ? I3 I4]; subst. destruct I3 as (t & o & i & A1 & A2 & A3 & A4). apply Forall_app. split; [exact I1|]. constructor; [|exact I4]. exists t, o, i. split; [exact A1|]. split; [exact A2|]. split; [|exact A4]. exact (served_opendir q o i n ord _ _ A3 HL).
  - apply Forall_app in IH as [I1 I2]. inversion I2 as [|? ? I3 I4]; subst. destruct I3 as (t & o & i & A1 & A2 & A3 & A4). apply Forall_app. split; [exact I1|]. constructor; [|exact I4]. exists t, o, i. split; [exact A1|]. split; [exact A2|]. split; [|exact A4]. exact (served_getattr q o i n _ _ _ A3 HL).
  - apply Forall_app in IH as [I1 I2]. inversion I2; subst. apply Forall_app. split; assumption.
Qed.
(** C70.  Whatever was asked before: every node the kernel knows stands for the part of the tree at
    its path and answers every request accordingly; and every path of the tree can be looked up. *)
Theorem C70_mounted_tree : forall q D dev kids ks, dir_shows q D FSTreeObjectID FirstFreeObjectID kids ks -> mountable q ks -> good_device D dev -> zlen D < 2^63 ->
  (forall T p isd n, session q T -> In (p, isd, n) T -> exists t, tree_sub (TDir kids) p = Some t /\ isd = is_tdir t /\ shows_node q dev t n) /\
  (forall T p t, session q T -> (exists n, In ([], true, n) T) -> tree_sub (TDir kids) p = Some t -> exists T' n, session q T' /\ incl (map fst T) (map fst T') /\ In (p, is_tdir t, n) T').
Proof.
  intros q D dev kids ks HD HM HDv HDl.
  assert (HR : node_is q D FSTreeObjectID FirstFreeObjectID (TDir kids)). { inversion HD as [? ? ? ks' HE HL E1 E2 E3 E4]; subst. destruct (HM FSTreeObjectID FirstFreeObjectID (or_introl eq_refl)) as [[x HX] _]. exists x. split; [exact HX|]. eexists. split; [exact HD|exact HM]. }
  split.
  - intros T p isd n HS HI. pose proof (session_inv q D kids HR T HS) as HF. rewrite Forall_forall in HF. destruct (HF _ HI) as (t & o & i & A1 & A2 & A3 & A4). exists t. split; [exact A1|]. split; [exact A2|]. exact (view q D dev o i n t HDv HDl A3 A4).
  - intros T p. induction p as [|c p IH] using rev_ind; intros t HS HI HT.
    + cbn in HT. injection HT as <-. destruct HI as [n HI]. exists T, n. split; [exact HS|]. split; [apply incl_refl|exact HI].
    + assert (HP : exists kk, tree_sub (TDir kids) p = Some (TDir kk) /\ pick kk c = Some t).
      { clear -HT. revert HT. generalize (TDir kids). induction p as [|x p IH]; intros u HT; cbn [app tree_sub] in *; [destruct u as [| |kk]; try discriminate; exists kk; split; [reflexivity|]; destruct (pick kk c); [injection HT as ->; reflexivity|discriminate]|].
        destruct u as [| |kk]; try discriminate. destruct (pick kk x); [apply IH; exact HT|discriminate]. }
      destruct HP as (kk & HP1 & HP2). destruct (IH (TDir kk) HS HI HP1) as (T' & n & S1 & S2 & S3). cbn [is_tdir] in S3. pose proof (session_inv q D kids HR T' S1) as HF. rewrite Forall_forall in HF. destruct (HF _ S3) as (t' & o & i & A1 & A2 & A3 & A4). rewrite HP1 in A1. injection A1 as <-.
      destruct A4 as (x & HX & ks' & HD' & HM'). destruct (lookup_child q D o i kk ks' n c t A3 HD' HM' HP2) as (n' & ch & a & o' & i' & L1 & L2 & L3).
      apply in_split in S3 as (T1 & T2 & ->). eexists. exists ch. split; [exact (ses_found q T1 p n T2 c n' ch (is_tdir t) _ S1 L1)|]. split.
      * rewrite !map_app. cbn [map fst]. rewrite map_app. rewrite map_app in S2. cbn [map fst] in S2. intros y Hy. specialize (S2 y Hy). apply in_app_or in S2 as [S2|S2]; [apply in_or_app; left; exact S2|]. apply in_or_app. right. destruct S2 as [S2|S2]; [left; exact S2|right; apply in_or_app; left; exact S2].
      * apply in_or_app. right. right. apply in_or_app. right. left. reflexivity.
Qed.
Print Assumptions C70_mounted_tree.

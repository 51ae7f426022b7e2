(** C86: the mount command and damaged items. *)
From Verif Require Import Go GoProofs Layout LayoutProofs SpecLayout StructProofs PropsLayout KeyFmt Bolt Store IoUtil Fs Recover Rescue SpecFs SpecMount PropsRescueNode PropsRecoverDfs SpecSurvive PropsSurvive.
From Coq Require Import List Permutation ZifyBool ZifyNat ZifyN.
Ltac Zify.zify_post_hook ::= Z.div_mod_to_equations.

Definition done {A} (r : Res A) : Prop := exists x, r = Ok x.
Lemma done_ok {A} (x : A) : done (Ok x). Proof. exists x. reflexivity. Qed.
Lemma done_bind {A B} (r : Res A) (f : A -> Res B) : done r -> (forall x, r = Ok x -> done (f x)) -> done (rbind r f).
Proof. intros [x ->] H. cbn [rbind]. exact (H x eq_refl). Qed.
Lemma f32_done s off : slice_wf s -> 0 <= off -> off + 4 <= blen s -> done (at32 off s).
Proof.
  intros W H0 H. rewrite at32_exact by exact W. assert (R : readable off 4 s = true) by (apply readable_iff; unfold blen in H; rewrite zlen_sbytes in H by exact W; destruct W; unfold scap; lia). rewrite R. apply done_ok.
Qed.
Lemma f64_done s off : slice_wf s -> 0 <= off -> off + 8 <= blen s -> done (at64 off s).
Proof.
  intros W H0 H. rewrite at64_exact by exact W. assert (R : readable off 8 s = true) by (apply readable_iff; unfold blen in H; rewrite zlen_sbytes in H by exact W; destruct W; unfold scap; lia). rewrite R. apply done_ok.
Qed.
Lemma time_done s off : slice_wf s -> 0 <= off -> off + 12 <= blen s -> done (atTime off s).
Proof.
  intros W H0 H. assert (HL : off <= s_len s) by (unfold blen in H; rewrite zlen_sbytes in H by exact W; lia). rewrite atTime_parts by (try exact W; lia).
  apply done_bind; [apply f64_done; [exact W|lia|lia]|]. intros x _. apply done_bind; [apply f32_done; [exact W|lia|lia]|]. intros y _. apply done_ok.
Qed.
Lemma attr_done i s : inode_whole s -> done (inode_attr i s).
Proof.
  intros [W H]. unfold inode_attr.
  apply done_bind; [apply f64_done; [exact W|discriminate|change inodeItemSize with 16; lia]|]. intros x1 _.
  apply done_bind; [apply time_done; [exact W|discriminate|change inodeItemAtime with 112; lia]|]. intros x2 _.
  apply done_bind; [apply time_done; [exact W|discriminate|change inodeItemMtime with 136; lia]|]. intros x3 _.
  apply done_bind; [apply time_done; [exact W|discriminate|change inodeItemCtime with 124; lia]|]. intros x4 _.
  apply done_bind; [apply f32_done; [exact W|discriminate|change inodeItemMode with 52; lia]|]. intros x5 _.
  apply done_bind; [apply f32_done; [exact W|discriminate|change inodeItemNlink with 40; lia]|]. intros x6 _.
  apply done_bind; [apply f32_done; [exact W|discriminate|change inodeItemUID with 44; lia]|]. intros x7 _.
  apply done_bind; [apply f32_done; [exact W|discriminate|change inodeItemGID with 48; lia]|]. intros x8 _.
  apply done_bind; [apply f64_done; [exact W|discriminate|change inodeItemRdev with 56; lia]|]. intros x9 _. apply done_ok.
Qed.
(** ** one node *)
Definition whole_map (q : queries) (o i : Z) (m : dirmap) : Prop :=
  forall nm s, In (nm, s) m -> dir_item_whole s /\ exists k, In (k, s) (st_items (q_dirItems q o i)).
Lemma mset_in m n d x : In x (mset m n d) -> x = (n, d) \/ In x m.
Proof.
  induction m as [|[n' d'] m IH]; cbn [mset]; [intros [<-|[]]; left; reflexivity|]. destruct (bytes_eqb n' n); intros [<-|H]; [left; reflexivity|right; right; exact H|right; left; reflexivity|].
  destruct (IH H) as [->|H']; [left; reflexivity|right; right; exact H'].
Qed.
Lemma mget_in m n d : mget m n = Some d -> exists n', In (n', d) m.
Proof.
  unfold mget. destruct (List.find _ m) as [[n' d']|] eqn:EF; [|discriminate]. cbn [option_map snd]. intros H. assert (d' = d) by congruence. subst d'. exists n'. exact (proj1 (find_some _ _ EF)).
Qed.
Lemma fill_done q o i : forall l m, (forall k s, In (k, s) l -> dir_item_whole s /\ exists k', In (k', s) (st_items (q_dirItems q o i))) -> whole_map q o i m ->
  exists m', fill_dir l (Ok tt) m = Ok m' /\ whole_map q o i m'.
Proof.
  induction l as [|[k s] l IH]; intros m HL HM; [exists m; split; [reflexivity|exact HM]|]. cbn [fill_dir]. destruct (HL k s (or_introl eq_refl)) as [HW HI]. destruct (whole_name s HW) as [nm ->]. cbn [rbind].
  apply IH; [intros k' s' H; exact (HL k' s' (or_intror H))|]. intros nm' s' H. destruct (mset_in _ _ _ _ H) as [E|H']; [|exact (HM _ _ H')]. assert (s' = s) by congruence. subst s'. split; [exact HW|exact HI].
Qed.
Section Mount.
  Variables (q : queries) (xattrs : Z -> Z -> stream).
  Hypothesis HW : mount_whole q xattrs.
  (** what holds of every node the kernel knows *)
  Definition fine_node (isd : bool) (n : node_state) : Prop := leads q (n_owner n, n_inode n) isd /\ whole_map q (n_owner n) (n_inode n) (n_dir n).
  Lemma attr_ok isd n : fine_node isd n -> exists n' a st, GetAttr q n = Ok (n', a, st) /\ n_owner n' = n_owner n /\ n_inode n' = n_inode n /\ n_dir n' = n_dir n.
  Proof.
    intros [HL _]. unfold GetAttr. destruct (n_attr n) as [a|]; [exists n, (Some a), OK; auto|]. destruct (HW _ _ _ HL) as [[->|(it & -> & HI)] _]; cbn [rbind]; [exists n, None, ENOATTR; auto|].
    destruct (attr_done (n_inode n) it HI) as [a ->]. cbn [rbind]. exists (set_attr n a), (Some a), OK. auto.
  Qed.
  Lemma ensure_ok n : fine_node true n -> exists n', ensureDirItems q n = Ok n' /\ n_owner n' = n_owner n /\ n_inode n' = n_inode n /\ fine_node true n'.
  Proof.
    intros [HL HM]. unfold ensureDirItems. destruct (0 <? zlen (n_dir n)); [exists n; split; [reflexivity|]; split; [reflexivity|]; split; [reflexivity|split; [exact HL|exact HM]]|]. cbv zeta.
    destruct (HW _ _ _ HL) as (_ & HD & _). destruct (HD eq_refl) as [HE HI]. rewrite HE.
    destruct (fill_done q (n_owner n) (n_inode n) (st_items (q_dirItems q (n_owner n) (n_inode n))) (n_dir n)) as (m' & -> & HM'); [intros k s Hin; split; [exact (HI k s Hin)|exists k; exact Hin]|exact HM|]. cbn [rbind].
    exists (set_dir n m'). split; [reflexivity|]. split; [reflexivity|]. split; [reflexivity|]. split; [exact HL|exact HM'].
  Qed.
  Lemma lookup_ok n name : fine_node true n -> exists n' c a st, Lookup q n name = Ok (n', c, a, st) /\ fine_node true n' /\ forall c' isd, c = Some (c', isd) -> fine_node isd c'.
  Proof.
    intros HF. unfold Lookup. destruct (ensure_ok n HF) as (n1 & -> & HO & HI & HF1). cbn [rbind]. destruct (mget (n_dir n1) name) as [d|] eqn:EM; [|exists n1, None, None, ENOENT; split; [reflexivity|]; split; [exact HF1|discriminate]].
    destruct (mget_in _ _ _ EM) as [nm Hin]. destruct HF1 as [HL HM]. destruct (HM _ _ Hin) as [HD [k Hk]]. unfold child_of, DirItem_IsSubvolume, DirItem_IsDir. rewrite (whole_loc d HD), (whole_type d HD). cbn [rbind KType ObjectID].
    change RootItemKey with 132. change FtDir with 2. set (key := if fld d 8 1 =? 132 then (fld d 0 8, FirstFreeObjectID) else (n_owner n1, fld d 0 8)).
    assert (HC : fine_node (fld d 29 1 =? 2) (newRescueNode (fst key) (snd key))).
    { split; [|intros nm' s []]. cbn [newRescueNode n_owner n_inode]. pose proof (leads_to q (n_owner n1) (n_inode n1) k d HL Hk) as H. unfold key. destruct (fld d 8 1 =? 132); exact H. }
    destruct key as [ko ki]. cbn [fst snd] in HC. destruct (attr_ok _ _ HC) as (c & a & st & -> & H1 & H2 & H3). cbn [rbind].
    exists n1, (Some (c, fld d 29 1 =? 2)), a, st. split; [reflexivity|]. split; [split; [exact HL|exact HM]|]. intros c' isd E. assert (c' = c) by congruence. assert (isd = (fld d 29 1 =? 2)) by congruence. subst c' isd.
    unfold fine_node. rewrite H1, H2, H3. exact HC.
  Qed.
  Lemma entries_ok o i : forall m, whole_map q o i m -> done (dir_entries m).
  Proof.
    induction m as [|[nm s] m IH]; intros HM; [apply done_ok|]. cbn [dir_entries]. destruct (HM nm s (or_introl eq_refl)) as [HD _]. destruct (whole_name s HD) as [x ->]. cbn [rbind]. unfold DirItem_IsDir. rewrite (whole_type s HD). cbn [rbind].
    destruct IH as [y ->]; [intros nm' s' H; exact (HM nm' s' (or_intror H))|]. apply done_ok.
  Qed.
  Lemma list_ok n ord : fine_node true n -> (forall m, Permutation (ord m) m) -> exists n' es, OpenDir q ord n = Ok (n', es) /\ fine_node true n'.
  Proof.
    intros HF HO. unfold OpenDir. destruct (ensure_ok n HF) as (n1 & -> & _ & _ & HF1). cbn [rbind]. destruct (entries_ok (n_owner n1) (n_inode n1) (ord (n_dir n1))) as [es ->].
    { intros nm s Hin. apply (proj2 HF1 nm). exact (Permutation_in _ (HO _) Hin). }
    cbn [rbind]. exists n1, es. split; [reflexivity|exact HF1].
  Qed.
  Lemma inline_data s : inline_whole s -> done (FileExtentItem_Data s).
  Proof.
    intros (W & H1 & H2 & H3). unfold FileExtentItem_Data. change FileExtentItem_RAMBytes with (at64 (Z.of_nat 8)). rewrite f64_bytes by (try exact W; lia). cbn [rbind]. cbv zeta. pose proof (fld_range s 8 8) as HR.
    assert (E : i64 (fld s 8 8) = fld s 8 8) by (apply i64_small; lia). rewrite E. change DefaultBlockSize with 16384. change fileExtentItemDiskByteNr with 21. unfold blen in *. rewrite zlen_sbytes in * by exact W. destruct W as [W1 W2].
    rewrite (go_slice_ok s 21) by (unfold scap; destruct (16384 <? fld s 8 8) eqn:EL; lia). apply done_ok.
  Qed.
  Lemma map_ok l : (forall k s, In (k, s) l -> mapped_whole q s) -> done (map_entries q l (Ok tt)).
  Proof.
    induction l as [|[k s] l IH]; intros HL; [apply done_ok|]. cbn [map_entries]. destruct (HL k s (or_introl eq_refl)) as (W & H1 & H2). unfold map_entry.
    change FileExtentItem_DiskByteNr with (at64 (Z.of_nat 21)). rewrite f64_bytes by (try exact W; lia). cbn [rbind].
    assert (HP : exists p, (if 0 <? fld s 21 8 then q_physical q (fld s 21 8) else Ok (0, 0)) = Ok p) by (destruct (0 <? fld s 21 8) eqn:E; [apply H2; lia|eexists; reflexivity]). destruct HP as [[dv ph] ->]. cbn [rbind].
    change FileExtentItem_NumBytes with (at64 (Z.of_nat 45)). rewrite f64_bytes by (try exact W; lia). cbn [rbind].
    change FileExtentItem_Offset with (at64 (Z.of_nat 37)). rewrite f64_bytes by (try exact W; lia). cbn [rbind].
    destruct IH as [y ->]; [intros k' s' H; exact (HL k' s' (or_intror H))|]. apply done_ok.
  Qed.
  Lemma inline_q s : slice_wf s -> 21 <= blen s -> FileExtentItem_IsInline s = Ok (fld s 20 1 =? 0).
  Proof. intros W H. unfold FileExtentItem_IsInline. change FileExtentItem_Type with (at8 (Z.of_nat 20)). rewrite f8_bytes by (try exact W; lia). reflexivity. Qed.
  Lemma open_ok n : fine_node false n -> done (Open q n).
  Proof.
    intros [HL _]. destruct (HW _ _ _ HL) as (_ & _ & HF & _). destruct (HF eq_refl) as [[HE HO] _]. unfold Open, newExtentFile. cbv zeta. rewrite HE. destruct (st_items (q_extents q (n_owner n) (n_inode n))) as [|[k e] l] eqn:EI; [apply done_ok|].
    destruct HO as (HB & H1 & H2). destruct (Z.eq_dec (fld e 20 1) 0) as [E0|E0].
    - pose proof (H1 E0) as HI. rewrite (inline_q e (proj1 HI) HB), E0. cbn [rbind Z.eqb]. destruct (inline_data e HI) as [d ->]. apply done_ok.
    - pose proof (H2 E0) as HM. destruct (HM k e (or_introl eq_refl)) as (W & _). rewrite (inline_q e W HB). apply Z.eqb_neq in E0. rewrite E0. cbn [rbind]. destruct (map_ok _ HM) as [m ->]. apply done_ok.
  Qed.
  Lemma link_ok n : fine_node false n -> done (Readlink q n).
  Proof.
    intros [HL _]. destruct (HW _ _ _ HL) as (_ & _ & HF & _). destruct (HF eq_refl) as [_ [HN|(e & HN & W & HB & HI)]]; unfold Readlink; rewrite HN; cbn [rbind]; [apply done_ok|]. rewrite (inline_q e W HB). cbn [rbind].
    destruct (fld e 20 1 =? 0) eqn:E; [|apply done_ok]. destruct (inline_data e (HI ltac:(lia))) as [d ->]. apply done_ok.
  Qed.
  Lemma x_name s : xattr_whole s -> done (DirItem_Name s).
  Proof. intros (W & H1 & H2). pose proof (fld_range s 25 2). destruct (whole_name s) as [n ->]; [split; [exact W|lia]|apply done_ok]. Qed.
  Lemma x_data s : xattr_whole s -> done (DirItem_Data s).
  Proof.
    intros (W & H1 & H2). pose proof (fld_range s 25 2) as R1. pose proof (fld_range s 27 2) as R2. unfold DirItem_Data. change DirItem_NameLen with (at16 (Z.of_nat 27)). rewrite f16_bytes by (try exact W; lia). cbn [rbind]. cbv zeta.
    change DirItem_DataLen with (at16 (Z.of_nat 25)). rewrite f16_bytes by (try exact W; lia). cbn [rbind]. change dirItemName with 30. unfold blen in *. rewrite zlen_sbytes in * by exact W. destruct W as [W1 W2].
    assert (E1 : u16 (30 + fld s 27 2) = 30 + fld s 27 2) by (unfold u16; rewrite Z.mod_small; lia). rewrite E1. assert (E2 : u16 (30 + fld s 27 2 + fld s 25 2) = 30 + fld s 27 2 + fld s 25 2) by (unfold u16; rewrite Z.mod_small; lia). rewrite E2.
    rewrite go_slice_ok by (unfold scap; lia). apply done_ok.
  Qed.
  Lemma xattr_ok isd n : fine_node isd n -> done (ListXAttr (xattrs (n_owner n) (n_inode n))) /\ forall name, done (GetXAttr (xattrs (n_owner n) (n_inode n)) name).
  Proof.
    intros [HL _]. destruct (HW _ _ _ HL) as (_ & _ & _ & HE & HX). unfold ListXAttr, GetXAttr. rewrite HE. split; [|intros name]; induction (st_items (xattrs (n_owner n) (n_inode n))) as [|[k s] l IH]; try apply done_ok; cbn [xattr_names find_xattr];
      (destruct (x_name s (HX k s (or_introl eq_refl))) as [nm ->]); cbn [rbind]; specialize (IH (fun k' s' H => HX k' s' (or_intror H))).
    - destruct IH as [y ->]. apply done_ok.
    - destruct (bytes_eqb nm name); [destruct (x_data s (HX k s (or_introl eq_refl))) as [d ->]; apply done_ok|exact IH].
  Qed.
End Mount.
(** ** sessions *)
Section Sessions.
  Variables (q : queries) (xattrs : Z -> Z -> stream).
  Hypothesis HW : mount_whole q xattrs.
  Lemma session_fine (T : known) : session q T -> forall (p : cpath) (isd : bool) (n : node_state), In (p, isd, n) T -> fine_node q isd n.
  Proof.
    assert (REPL : forall (T1 : known) p0 isd0 n0 n0' T2, (forall p isd n, In (p, isd, n) (T1 ++ (p0, isd0, n0) :: T2) -> fine_node q isd n) -> fine_node q isd0 n0' ->
      forall p isd n, In (p, isd, n) (T1 ++ (p0, isd0, n0') :: T2) -> fine_node q isd n).
    { intros T1 p0 isd0 n0 n0' T2 H HF p isd n Hin. apply in_app_or in Hin as [Hin|[E|Hin]]; [apply (H p), in_or_app; left; exact Hin| |apply (H p), in_or_app; right; right; exact Hin].
      assert (isd = isd0) by congruence. assert (n = n0') by congruence. subst. exact HF. }
    assert (MID : forall (T1 : known) p0 isd0 n0 T2, In (p0, isd0, n0) (T1 ++ (p0, isd0, n0) :: T2)) by (intros; apply in_or_app; right; left; reflexivity).
    intros HS. induction HS as [|T1 p0 n0 T2 name n1 c isd a HS IH HQ|T1 p0 n0 T2 name n1 c a st HS IH HQ Hst|T1 p0 n0 T2 ord n1 es HS IH HQ|T1 p0 isd0 n0 T2 n1 a st HS IH HQ|T1 x T2 HS IH].
    - intros p isd n [E|[]]. assert (isd = true) by congruence. assert (n = mount_node) by congruence. subst. split; [exact (leads_top q)|intros nm s []].
    - destruct (lookup_ok q xattrs HW n0 name (IH p0 true n0 (MID _ _ _ _ _))) as (n' & c' & a' & st' & E & HF & HC). assert (n' = n1) by congruence. assert (c' = Some (c, isd)) by congruence. subst n' c'.
      intros p isd' n Hin. replace (T1 ++ (p0, true, n1) :: T2 ++ [(p0 ++ [name], isd, c)]) with ((T1 ++ (p0, true, n1) :: T2) ++ [(p0 ++ [name], isd, c)]) in Hin by (rewrite <- app_assoc; reflexivity).
      apply in_app_or in Hin as [Hin|[E'|[]]]; [exact (REPL _ _ _ _ _ _ IH HF p isd' n Hin)|]. assert (isd' = isd) by congruence. assert (n = c) by congruence. subst. exact (HC c isd eq_refl).
    - destruct (lookup_ok q xattrs HW n0 name (IH p0 true n0 (MID _ _ _ _ _))) as (n' & c' & a' & st' & E & HF & _). assert (n' = n1) by congruence. subst n'. exact (REPL _ _ _ _ _ _ IH HF).
    - unfold OpenDir in HQ. destruct (ensure_ok q xattrs HW n0 (IH p0 true n0 (MID _ _ _ _ _))) as (n' & E & _ & _ & HF). rewrite E in HQ. cbn [rbind] in HQ. destruct (dir_entries (ord (n_dir n'))); cbn [rbind] in HQ; try discriminate. assert (n' = n1) by congruence. subst n'. exact (REPL _ _ _ _ _ _ IH HF).
    - pose proof (IH p0 isd0 n0 (MID _ _ _ _ _)) as HF0. destruct (attr_ok q xattrs HW isd0 n0 HF0) as (n' & a' & st' & E & H1 & H2 & H3). assert (n' = n1) by congruence. subst n'. apply (REPL _ _ _ n0); [exact IH|]. unfold fine_node. rewrite H1, H2, H3. exact HF0.
    - intros p isd n Hin. apply (IH p). apply in_app_or in Hin as [Hin|Hin]; apply in_or_app; [left; exact Hin|right; right; exact Hin].
  Qed.
End Sessions.

(** ** reading *)
Lemma put_at_len buf off data n : zlen buf = n -> 0 <= off -> off + zlen data <= n -> zlen (put_at buf off data) = n.
Proof. intros HL H0 H1. unfold put_at, zlen in *. rewrite !app_length, firstn_length, skipn_length. lia. Qed.
Lemma i64_bounds x : - 2^63 <= i64 x < 2^63.
Proof. unfold i64. pose proof (Z.mod_pos_bound (x + 2^63) (2^64) ltac:(lia)). lia. Qed.
Lemma read_loop_done dev off n : bounded dev -> 0 <= off -> off + n < 2^63 -> forall m buf got, zlen buf = n -> 0 <= got <= n ->
  exists r, read_loop dev m buf off got = Ok r /\ forall buf' got', r = Some (buf', got') -> zlen buf' = n /\ 0 <= got' <= n.
Proof.
  intros HB Ho Hn. induction m as [|x m IH]; intros buf got HL HG; [exists (Some (buf, got)); split; [reflexivity|]; intros b' g' E; assert (b' = buf) by congruence; assert (g' = got) by congruence; subst; auto|].
  cbn [read_loop]. cbv zeta. rewrite HL. set (eend := i64 (u64 (x_fileOffset x + x_length x))). set (estart := i64 (x_fileOffset x)). pose proof (i64_bounds (x_fileOffset x)) as B1. fold estart in B1. pose proof (i64_bounds (u64 (x_fileOffset x + x_length x))) as B2. fold eend in B2. clearbody eend estart.
  destruct (eend <=? off) eqn:E1; [exact (IH buf got HL HG)|]. rewrite (i64_small (off + (n - got))) by lia.
  destruct (off + (n - got) <=? estart) eqn:E2; [exists (Some (buf, got)); split; [reflexivity|]; intros b' g' E; assert (b' = buf) by congruence; assert (g' = got) by congruence; subst; auto|].
  set (rs := if off <? estart then estart else off). set (re := if eend <? off + (n - got) then eend else off + (n - got)).
  assert (R1 : off <= rs) by (unfold rs; destruct (off <? estart) eqn:E; lia). assert (R2 : re <= off + (n - got)) by (unfold re; destruct (eend <? off + (n - got)) eqn:E; lia). clearbody rs re.
  destruct (re <=? rs) eqn:E3; [exact (IH buf got HL HG)|]. rewrite (i64_small (re - rs)) by lia. rewrite (i64_small (rs - off)) by lia. rewrite (i64_small (rs - off + (re - rs))) by lia.
  destruct ((x_diskByteNr x =? 0) || device_nil dev).
  - replace ((0 <=? rs - off) && (rs - off + (re - rs) <=? n)) with true by lia. apply IH; [|lia]. apply put_at_len; [exact HL|lia|]. unfold zeros. unfold zlen. rewrite repeat_length. lia.
  - rewrite go_slice_ok by (unfold scap; cbn [sl s_arr]; lia). cbn [rbind s_len]. pose proof (HB (rs - off + (re - rs) - (rs - off)) (i64 (i64 (x_physOffset x) + i64 (rs - estart))) ltac:(lia)) as HD.
    destruct (device_read dev _ _) as [data err]. cbn [fst] in HD. assert (HP : zlen (put_at buf (rs - off) data) = n) by (apply put_at_len; [exact HL|lia|lia]).
    destruct err as [[|]|]; try (apply IH; [exact HP|lia]). exists None. split; [reflexivity|discriminate].
Qed.
(** C86, reading: whatever the extent items of the file say and whatever the device does, a read is answered, with no more than was asked for *)
Theorem C86_read_answered : forall dev m buf off, bounded dev -> off + zlen buf < 2^63 ->
  exists data st, extentFile_Read dev m buf off = Ok (data, st) /\ zlen data <= zlen buf.
Proof.
  intros dev m buf off HB HO. unfold extentFile_Read. assert (H0 : 0 <= zlen buf) by (unfold zlen; lia). destruct (off <? 0) eqn:EO; [exists [], EINVAL; split; [reflexivity|exact H0]|].
  destruct (read_loop_done dev off (zlen buf) HB ltac:(lia) HO m buf 0 eq_refl ltac:(lia)) as (r & -> & HR). cbn [rbind]. destruct r as [[b' g']|]; [|exists [], EIO; split; [reflexivity|exact H0]].
  destruct (HR b' g' eq_refl) as [HL HG]. destruct (g' <? zlen b') eqn:EG; [|exists b', OK; split; [reflexivity|lia]]. unfold go_to. rewrite go_slice_ok by (unfold scap; cbn [sl s_arr]; lia). cbn [rbind].
  eexists _, OK. split; [reflexivity|]. unfold sbytes. cbn [s_arr s_len]. unfold zlen in *. rewrite firstn_length. lia.
Qed.
Print Assumptions C86_read_answered.

(** C86: if everything that directory items lead to is whole, no sequence of requests stops the file system *)
Theorem C86_answered_partial : forall q xattrs T p isd n, mount_whole q xattrs -> session q T -> In (p, isd, n) T ->
  (exists n' a st, GetAttr q n = Ok (n', a, st)) /\
  (isd = true -> forall name, exists n' c a st, Lookup q n name = Ok (n', c, a, st)) /\
  (isd = true -> forall ord, (forall m, Permutation (ord m) m) -> exists n' es, OpenDir q ord n = Ok (n', es)) /\
  (isd = false -> exists f st, Open q n = Ok (f, st)) /\
  (isd = false -> exists t st, Readlink q n = Ok (t, st)) /\
  (exists l, ListXAttr (xattrs (n_owner n) (n_inode n)) = Ok l) /\
  (forall name, exists v st, GetXAttr (xattrs (n_owner n) (n_inode n)) name = Ok (v, st)).
Proof.
  intros q xattrs T p isd n HW HS Hin. pose proof (session_fine q xattrs HW T HS p isd n Hin) as HF.
  split; [destruct (attr_ok q xattrs HW isd n HF) as (n' & a & st & E & _); exists n', a, st; exact E|].
  split; [intros -> name; destruct (lookup_ok q xattrs HW n name HF) as (n' & c & a & st & E & _); exists n', c, a, st; exact E|].
  split; [intros -> ord HO; destruct (list_ok q xattrs HW n ord HF HO) as (n' & es & E & _); exists n', es; exact E|].
  split; [intros ->; destruct (open_ok q xattrs HW n HF) as [[f st] E]; exists f, st; exact E|].
  split; [intros ->; destruct (link_ok q xattrs HW n HF) as [[t st] E]; exists t, st; exact E|].
  destruct (xattr_ok q xattrs HW isd n HF) as [[l HL] HX]. split; [exists l; exact HL|]. intros name. destruct (HX name) as [[v st] E]. exists v, st. exact E.
Qed.
Print Assumptions C86_answered_partial.

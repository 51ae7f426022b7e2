(** C54-C56, C64: directories, attributes, extended attributes and links of the mounted file system. *)
From Verif Require Import Go GoProofs Layout LayoutProofs SpecLayout StructProofs PropsLayout KeyFmt KeyProofs Bolt Store StoreProofs SpecStore PropsStore MkIndex IoUtil Fs Recover SpecContent Conc PropsConc Rescue.
From Verif Require Import PropsRange PropsPath PropsRecoverDfs PropsRecoverFile PropsRecoverEx PropsRescueRead.
From Coq Require Import Permutation.
From Coq Require Import ZifyBool ZifyNat ZifyN.
Ltac Zify.zify_post_hook ::= Z.div_mod_to_equations.

(** ** specification *)
(** any sequence of requests on one node, starting from a new node *)
Inductive served (q : queries) (o i : Z) : node_state -> Prop :=
| served_new : served q o i (newRescueNode o i)
| served_lookup n name n' c a st : served q o i n -> Lookup q n name = Ok (n', c, a, st) -> served q o i n'
| served_opendir n ord n' es : served q o i n -> OpenDir q ord n = Ok (n', es) -> served q o i n'
| served_getattr n n' a st : served q o i n -> GetAttr q n = Ok (n', a, st) -> served q o i n'.
(** directory (o, i) holds the dir items [ds], in index order *)
Definition dir_holds (q : queries) (o i : Z) (ds : list d_dir_item) : Prop :=
  st_end (q_dirItems q o i) = Ok tt /\
  Forall2 (fun e d => carries (snd e) (dir_item_fields d) /\ zlen (di_name d) <= 255) (st_items (q_dirItems q o i)) ds.
(** the last item with a name *)
Definition last_named (ds : list d_dir_item) (name : list byte) : option d_dir_item := List.find (fun d => bytes_eqb (di_name d) name) (rev ds).
(** the inode a dir item of tree [o] stands for *)
Definition leads_to (o : Z) (d : d_dir_item) : Z * Z :=
  if k_type (di_location d) =? 132 then (k_objectid (di_location d), 256) else (o, k_objectid (di_location d)).
(** inode (o, i) has the inode item [d] *)
Definition has_inode (q : queries) (o i : Z) (d : d_inode) : Prop :=
  exists ii, q_inode q o i = Ok (Some ii) /\ carries ii (inode_fields d) /\ inode_times_ok d.
(** the attributes to be reported; fuse.Attr has unsigned times and a 32 bit rdev *)
Definition attr_of (ino : Z) (d : d_inode) : attr :=
  mkAttr ino (in_size d) (ts_sec (in_atime d) mod 2^64) (ts_sec (in_mtime d) mod 2^64) (ts_sec (in_ctime d) mod 2^64)
    (ts_nsec (in_atime d)) (ts_nsec (in_mtime d)) (ts_nsec (in_ctime d)) (in_mode d) (in_nlink d) (in_uid d) (in_gid d) (in_rdev d mod 2^32).

(** ** attributes *)
Lemma inode_attr_ok ino ii d : carries ii (inode_fields d) -> inode_times_ok d -> inode_attr ino ii = Ok (attr_of ino d).
Proof.
  intros HC HT. destruct (C06_inode_item d ii HC HT) as (_ & _ & H3 & _ & H5 & H6 & H7 & H8 & H9 & _ & _ & _ & A & C & M & _).
  unfold inode_attr. rewrite H3, A, M, C, H8, H5, H6, H7, H9. cbn [rbind fst snd]. destruct HT as (T1 & T2 & T3 & _). unfold ts_ok in *.
  unfold attr_of, u64, u32. rewrite !(Z.mod_small (ts_nsec _)) by lia. reflexivity.
Qed.
(** what the caches of a node can hold *)
Definition node_inv (q : queries) (o i : Z) (n : node_state) : Prop :=
  n_owner n = o /\ n_inode n = i /\
  (forall a, n_attr n = Some a -> exists ii, q_inode q o i = Ok (Some ii) /\ inode_attr i ii = Ok a) /\
  (n_dir n = [] \/ fill_dir (st_items (q_dirItems q o i)) (st_end (q_dirItems q o i)) [] = Ok (n_dir n)).
Lemma getattr_inv q o i n n' a st : node_inv q o i n -> GetAttr q n = Ok (n', a, st) -> node_inv q o i n'.
Proof.
  intros (H1 & H2 & H3 & H4) H. unfold GetAttr in H. destruct (n_attr n) as [x|] eqn:EA; [injection H as <- _ _; split; [|split; [|split]]; auto; intros a0 Ha; apply H3; congruence|].
  rewrite H1, H2 in H. destruct (q_inode q o i) as [[ii|]| |] eqn:EI; cbn [rbind] in H; try discriminate.
  - destruct (inode_attr i ii) as [x| |] eqn:EX; cbn [rbind] in H; try discriminate. injection H as <- _ _. split; [exact H1|]. split; [exact H2|]. split; [|exact H4].
    cbn [n_attr set_attr]. intros a0 Ha. injection Ha as <-. exists ii. auto.
  - injection H as <- _ _. split; [|split; [|split]]; auto. intros a0 Ha. congruence.
Qed.
Lemma ensure_inv q o i n n' : node_inv q o i n -> ensureDirItems q n = Ok n' ->
  node_inv q o i n' /\ fill_dir (st_items (q_dirItems q o i)) (st_end (q_dirItems q o i)) [] = Ok (n_dir n').
Proof.
  intros (H1 & H2 & H3 & H4) H. unfold ensureDirItems in H. destruct (0 <? zlen (n_dir n)) eqn:EZ.
  - injection H as <-. destruct H4 as [H4|H4]; [rewrite H4 in EZ; discriminate|]. split; [|exact H4]. split; [exact H1|]. split; [exact H2|]. split; [exact H3|right; exact H4].
  - assert (HN : n_dir n = []) by (destruct (n_dir n); [reflexivity|unfold zlen in EZ; cbn [length] in EZ; lia]). rewrite H1, H2, HN in H. cbv zeta in H.
    destruct (fill_dir _ _ []) as [m| |] eqn:EF; cbn [rbind] in H; try discriminate. injection H as <-. cbn [n_dir set_dir]. split; [|reflexivity].
    split; [exact H1|]. split; [exact H2|]. split; [exact H3|]. right. cbn [n_dir]. exact EF.
Qed.
Lemma served_inv q o i n : served q o i n -> node_inv q o i n.
Proof.
  induction 1 as [|n name n' c a st _ IH H|n ord n' es _ IH H|n n' a st _ IH H].
  - split; [reflexivity|]. split; [reflexivity|]. split; [discriminate|left; reflexivity].
  - unfold Lookup in H. apply rbind_inv in H as (n1 & HE & H). destruct (ensure_inv _ _ _ _ _ IH HE) as [HI _].
    destruct (mget (n_dir n1) name) as [d|]; [|injection H as <- _ _ _; exact HI]. apply rbind_inv in H as ([o' i'] & _ & H). apply rbind_inv in H as (isd & _ & H). apply rbind_inv in H as ([[c' a'] st'] & _ & H).
    injection H as <- _ _ _. exact HI.
  - unfold OpenDir in H. apply rbind_inv in H as (n1 & HE & H). destruct (ensure_inv _ _ _ _ _ IH HE) as [HI _]. apply rbind_inv in H as (es' & _ & H). injection H as <- _. exact HI.
  - exact (getattr_inv _ _ _ _ _ _ _ IH H).
Qed.
(** C55.  At any time, GetAttr of an inode that has an inode item reports its fields, and
    ENOATTR if there is none. *)
Theorem C55_attributes q o i n d : served q o i n -> has_inode q o i d -> exists n', GetAttr q n = Ok (n', Some (attr_of i d), OK).
Proof.
  intros HS (ii & HI & HC & HT). destruct (served_inv _ _ _ _ HS) as (H1 & H2 & H3 & _). unfold GetAttr. destruct (n_attr n) as [a|] eqn:EA.
  - destruct (H3 a eq_refl) as (ii' & HI' & Ha). rewrite HI in HI'. injection HI' as <-. rewrite (inode_attr_ok _ _ _ HC HT) in Ha. injection Ha as <-. exists n. reflexivity.
  - rewrite H1, H2, HI. cbn [rbind]. rewrite (inode_attr_ok _ _ _ HC HT). cbn [rbind]. eexists. reflexivity.
Qed.
Theorem C55_enoattr q o i n : served q o i n -> (exists n', GetAttr q n = Ok (n', None, ENOATTR)) <-> q_inode q o i = Ok None.
Proof.
  intros HS. destruct (served_inv _ _ _ _ HS) as (H1 & H2 & H3 & _). unfold GetAttr. destruct (n_attr n) as [a|] eqn:EA.
  - destruct (H3 a eq_refl) as (ii & HI & _). split; [intros (n' & H); discriminate|rewrite HI; discriminate].
  - rewrite H1, H2. destruct (q_inode q o i) as [[ii|]| |]; cbn [rbind]; split; try discriminate; try (intros (n' & H); try discriminate); [|reflexivity|exists n; reflexivity].
    destruct (inode_attr i ii) as [x| |]; cbn [rbind] in H; discriminate.
Qed.
(** the handle of an open file reports the same; without an inode item, a regular file as
    large as its extents *)
Theorem C55_open_file q o i m d out : has_inode q o i d -> extentFile_GetAttr q o i m out = Ok (attr_of (a_ino out) d, OK).
Proof. intros (ii & HI & HC & HT). unfold extentFile_GetAttr. rewrite HI. cbn [rbind]. rewrite (inode_attr_ok _ _ _ HC HT). reflexivity. Qed.
Theorem C55_open_file_fallback q n xs fin out : q_inode q (n_owner n) (n_inode n) = Ok None ->
  Forall2 (is_extent q) (st_items (q_extents q (n_owner n) (n_inode n))) xs -> st_end (q_extents q (n_owner n) (n_inode n)) = Ok tt ->
  xs <> [] -> Forall (fun x => ~ is_inline x) xs -> chain 0 xs fin -> fin < 2^64 ->
  exists m a, Open q n = Ok (Some (ExtentFile m), OK) /\ extentFile_GetAttr q (n_owner n) (n_inode n) m out = Ok (a, OK) /\ a_size a = fin /\ a_mode a = 33188.
Proof.
  intros HI HX HE HN HIn HC Hf. destruct (Open_extents q n xs HX HE HN HIn) as (m & HOp & HM). exists m. unfold extentFile_GetAttr. rewrite HI. cbn [rbind]. eexists. split; [exact HOp|]. split; [reflexivity|].
  cbn [a_size a_mode]. split; [|reflexivity]. destruct m as [|e m]; [inversion HM; subst; congruence|].
  assert (G : forall xs m a, Forall2 entry_for m xs -> chain a xs fin -> xs <> [] -> forall z, let y := last m z in x_fileOffset y + x_length y = fin).
  { clear. induction xs as [|x xs IH]; intros m a HM HC HN z; [congruence|]. inversion HM as [|e ? m' ? He HM']; subst. cbn [chain] in HC. destruct HC as (Ho & HL & HC). destruct xs as [|x' xs].
    - inversion HM'; subst. cbn [chain] in HC. cbn [last]. destruct He as (E1 & E2 & _). lia.
    - inversion HM' as [|e' ? m'' ? He' HM'']; subst. change (last (e :: e' :: m'') z) with (last (e' :: m'') z). eapply IH; [exact HM'|exact HC|discriminate]. }
  specialize (G xs (e :: m) 0 HM HC HN e). cbv zeta in G. rewrite G. apply u64_small. pose proof (chain_range _ _ _ HC). unfold is_u64. lia.
Qed.

(** ** directories *)
Lemma carries_name s d : carries s (dir_item_fields d) -> zlen (di_name d) <= 255 -> DirItem_Name s = Ok (di_name d).
Proof. intros HC HN. exact (proj1 C08_names_exact d s HC HN). Qed.

(** the map that a directory is read into *)
Definition dmap (l : list (list byte * slice)) (ds : list d_dir_item) : dirmap := map (fun p => (di_name (snd p), snd (fst p))) (combine l ds).
Lemma fill_dir_map l ds : Forall2 (fun e d => carries (snd e) (dir_item_fields d) /\ zlen (di_name d) <= 255) l ds ->
  forall m, fill_dir l (Ok tt) m = Ok (fold_left (fun m e => mset m (fst e) (snd e)) (dmap l ds) m).
Proof.
  induction 1 as [|[k s] d l ds [HC HN] _ IH]; intros m; [reflexivity|]. cbn [fill_dir]. cbn [snd] in HC. rewrite (carries_name s d HC HN). cbn [rbind]. rewrite IH. reflexivity.
Qed.
Lemma mset_keys m n d x : In x (map fst (mset m n d)) <-> x = n \/ In x (map fst m).
Proof.
  induction m as [|[a y] m IH]; cbn [mset map fst In]; [intuition|]. destruct (bytes_eqb a n) eqn:E; cbn [map fst In].
  - apply bytes_eqb_eq in E. subst a. intuition.
  - rewrite IH. intuition.
Qed.
Lemma mset_nodup m n d : NoDup (map fst m) -> NoDup (map fst (mset m n d)).
Proof.
  induction m as [|[a y] m IH]; cbn [mset map fst]; intros H; [constructor; [intros []|constructor]|]. inversion H; subst. destruct (bytes_eqb a n) eqn:E; cbn [map fst].
  - apply bytes_eqb_eq in E. subst a. constructor; assumption.
  - constructor; [|auto]. rewrite mset_keys. intros [->|HI]; [|contradiction]. rewrite (proj2 (bytes_eqb_eq n n) eq_refl) in E. discriminate.
Qed.
Lemma fold_nodup L : forall m, NoDup (map fst m) -> NoDup (map fst (fold_left (fun (m : dirmap) e => mset m (fst e) (snd e)) L m)).
Proof. induction L as [|[a x] L IH]; intros m H; [exact H|]. cbn [fold_left]. apply IH, mset_nodup, H. Qed.
Lemma mget_spec m n d : NoDup (map fst m) -> mget m n = Some d <-> In (n, d) m.
Proof.
  intros HN. split; [apply mget_In|]. induction m as [|[a y] m IH]; [intros []|]. cbn [map fst] in HN. inversion HN; subst. rewrite mget_cons. intros [HE|HI].
  - injection HE as -> ->. rewrite (proj2 (bytes_eqb_eq n n) eq_refl). reflexivity.
  - destruct (bytes_eqb a n) eqn:E; [|apply IH; assumption]. apply bytes_eqb_eq in E. subst a. exfalso. match goal with H : ~ In n _ |- _ => apply H end. apply in_map_iff. exists (n, d). auto.
Qed.
Definition holds_item (e : list byte * slice) (d : d_dir_item) : Prop := carries (snd e) (dir_item_fields d) /\ zlen (di_name d) <= 255.
(** looking up in the map: the last item of the name *)
Lemma mget_last l ds : Forall2 holds_item l ds -> forall name,
  match last_named ds name with
  | Some d => exists s, mget (rev (dmap l ds)) name = Some s /\ carries s (dir_item_fields d) /\ zlen (di_name d) <= 255 /\ di_name d = name
  | None => mget (rev (dmap l ds)) name = None
  end.
Proof.
  intros H name. unfold last_named. revert l H. induction ds as [|d ds IH] using rev_ind; intros l H.
  - inversion H; subst. reflexivity.
  - apply Forall2_app_inv_r in H as (l1 & l2 & H1 & H2 & ->). inversion H2 as [|[k s] ? l3 ? [HC HN] H3]; subst. inversion H3; subst. cbn [snd] in HC.
    assert (HD : dmap (l1 ++ [(k, s)]) (ds ++ [d]) = dmap l1 ds ++ [(di_name d, s)]).
    { unfold dmap. assert (HL : length l1 = length ds) by (clear - H1; induction H1; cbn; congruence). clear - HL. revert ds HL. induction l1 as [|x l1 IH]; intros [|y ds] HL; cbn [length] in HL; try lia; [reflexivity|]. cbn [app combine map]. f_equal. apply IH. lia. }
    rewrite HD, !rev_app_distr. cbn [rev app List.find]. rewrite mget_cons. destruct (bytes_eqb (di_name d) name) eqn:E.
    + exists s. apply bytes_eqb_eq in E. auto.
    + exact (IH l1 H1).
Qed.
Lemma dir_state q o i ds n : served q o i n -> dir_holds q o i ds ->
  exists n', ensureDirItems q n = Ok n' /\ n_owner n' = o /\ n_inode n' = i /\ NoDup (map fst (n_dir n')) /\
    forall name, match last_named ds name with
      | Some d => exists s, mget (n_dir n') name = Some s /\ carries s (dir_item_fields d) /\ zlen (di_name d) <= 255 /\ di_name d = name
      | None => mget (n_dir n') name = None
      end.
Proof.
  intros HS (HE & HD). pose proof (served_inv _ _ _ _ HS) as (H1 & H2 & H3 & H4).
  pose proof (fill_dir_map _ _ HD []) as HF. rewrite <- HE in HF. set (M := fold_left (fun (m : dirmap) e => mset m (fst e) (snd e)) (dmap (st_items (q_dirItems q o i)) ds) []) in HF.
  assert (HM : exists n', ensureDirItems q n = Ok n' /\ n_owner n' = o /\ n_inode n' = i /\ n_dir n' = M).
  { unfold ensureDirItems. destruct (0 <? zlen (n_dir n)) eqn:EZ.
    - destruct H4 as [H4|H4]; [rewrite H4 in EZ; discriminate|]. rewrite HF in H4. injection H4 as H4. exists n. auto.
    - assert (HN : n_dir n = []) by (destruct (n_dir n); [reflexivity|unfold zlen in EZ; cbn [length] in EZ; lia]). rewrite H1, H2, HN. cbv zeta. rewrite HF. cbn [rbind]. eexists. split; [reflexivity|]. cbn. auto. }
  destruct HM as (n' & A & B & C & D). exists n'. split; [exact A|]. split; [exact B|]. split; [exact C|]. rewrite D. split; [apply fold_nodup; constructor|].
  intros name. unfold M. rewrite (fill_complete (dmap _ ds) (dmap _ ds) [] [] eq_refl (fun _ => eq_refl)). apply mget_last. exact HD.
Qed.
(** C54.  At any time, listing a directory gives each distinct name of its dir items once, with
    the kind of the last item of that name, whatever order the map is iterated in. *)
Theorem C54_listing q o i ds n ord : served q o i n -> dir_holds q o i ds -> (forall m, Permutation (ord m) m) ->
  exists n' es, OpenDir q ord n = Ok (n', es) /\ NoDup (map fst es) /\ (forall name, In name (map fst es) <-> In name (map di_name ds)) /\
    (forall name mode, In (name, mode) es <-> exists d, last_named ds name = Some d /\ mode = if di_type d =? 2 then S_IFDIR else S_IFREG).
Proof.
  intros HS HD HO. destruct (dir_state _ _ _ _ _ HS HD) as (n' & HE & _ & _ & HN & HG). unfold OpenDir. rewrite HE. cbn [rbind].
  set (kind := fun name => match last_named ds name with Some d => if di_type d =? 2 then S_IFDIR else S_IFREG | None => 0 end).
  assert (HK : forall name s, In (name, s) (n_dir n') -> DirItem_Name s = Ok name /\ exists d, last_named ds name = Some d /\ DirItem_IsDir s = Ok (di_type d =? 2)).
  { intros name s HI. apply (mget_spec _ _ _ HN) in HI. specialize (HG name). destruct (last_named ds name) as [d|] eqn:EL; [|congruence]. destruct HG as (s' & G1 & G2 & G3 & G4). rewrite HI in G1. injection G1 as <-.
    split; [rewrite (carries_name s d G2 G3), G4; reflexivity|]. exists d. split; [reflexivity|]. apply (C06_dir_item d s G2). }
  assert (HM : forall m, (forall x, In x m -> In x (n_dir n')) -> dir_entries m = Ok (map (fun e => (fst e, kind (fst e))) m)).
  { induction m as [|[nm s] m IH]; intros Hin; [reflexivity|]. cbn [dir_entries map fst]. destruct (HK nm s (Hin _ (or_introl eq_refl))) as (K1 & d & K2 & K3). rewrite K1. cbn [rbind]. rewrite K3. cbn [rbind].
    rewrite IH by (intros x Hx; apply Hin; right; exact Hx). cbn [rbind]. unfold kind at 2. rewrite K2. reflexivity. }
  specialize (HO (n_dir n')). rewrite HM by (intros x Hx; exact (Permutation_in _ HO Hx)). cbn [rbind]. eexists. eexists. split; [reflexivity|].
  assert (HF : map fst (map (fun e => (fst e, kind (fst e))) (ord (n_dir n'))) = map fst (ord (n_dir n'))) by (rewrite map_map; reflexivity).
  assert (HL : forall name, In name (map fst (ord (n_dir n'))) <-> exists d, last_named ds name = Some d).
  { intros name. split.
    - intros HI. apply in_map_iff in HI as ([nm s] & <- & HI). apply (Permutation_in _ HO) in HI. destruct (HK nm s HI) as (_ & d & K & _). exists d. exact K.
    - intros (d & Hd). specialize (HG name). rewrite Hd in HG. destruct HG as (s & G & _). apply mget_In in G. apply in_map_iff. exists (name, s). split; [reflexivity|]. apply (Permutation_in _ (Permutation_sym HO)). exact G. }
  split; [rewrite HF; exact (Permutation_NoDup (Permutation_map fst (Permutation_sym HO)) HN)|]. split.
  - intros name. rewrite HF, HL. unfold last_named. split.
    + intros (d & Hd). apply find_some in Hd as [Hd Hb]. apply in_rev in Hd. apply bytes_eqb_eq in Hb. apply in_map_iff. exists d. auto.
    + intros HI. apply in_map_iff in HI as (d & Hd & HI). destruct (List.find _ (rev ds)) as [d'|] eqn:EF; [exists d'; reflexivity|]. apply in_rev in HI. pose proof (find_none _ _ EF d HI) as HX. cbv beta in HX. rewrite Hd, (proj2 (bytes_eqb_eq name name) eq_refl) in HX. discriminate.
  - intros name mode. split.
    + intros HI. apply in_map_iff in HI as ([nm s] & HE' & HI). cbn [fst] in HE'. injection HE' as <- <-. destruct (proj1 (HL nm)) as (d & Hd); [apply in_map_iff; exists (nm, s); auto|]. exists d. split; [exact Hd|]. unfold kind. rewrite Hd. reflexivity.
    + intros (d & Hd & ->). specialize (HG name). rewrite Hd in HG. destruct HG as (s & G & _). apply mget_In in G. apply in_map_iff. exists (name, s). split.
      * cbn [fst]. unfold kind. rewrite Hd. reflexivity.
      * apply (Permutation_in _ (Permutation_sym HO)). exact G.
Qed.
(** and looking up a name finds it iff it is listed, leading to the inode of that item; the
    lookup succeeds iff that inode has an inode item *)
Theorem C54_lookup_partial q o i ds n name : served q o i n -> dir_holds q o i ds ->
  match last_named ds name with
  | None => exists n', Lookup q n name = Ok (n', None, None, ENOENT)
  | Some d =>
      let '(o', i') := leads_to o d in
      (forall di, has_inode q o' i' di -> exists n' c, Lookup q n name = Ok (n', Some (c, di_type d =? 2), Some (attr_of i' di), OK) /\ n_owner c = o' /\ n_inode c = i') /\
      (q_inode q o' i' = Ok None -> exists n' c, Lookup q n name = Ok (n', Some (c, di_type d =? 2), None, ENOATTR) /\ n_owner c = o' /\ n_inode c = i')
  end.
Proof.
  intros HS HD. destruct (dir_state _ _ _ _ _ HS HD) as (n' & HE & HO & HIn & _ & HG). specialize (HG name). unfold Lookup. rewrite HE. cbn [rbind]. destruct (last_named ds name) as [d|].
  - destruct HG as (s & G1 & G2 & _). destruct (C06_dir_item d s G2) as (L1 & _ & _ & _ & _ & L2 & L3). rewrite G1. unfold child_of. rewrite L3. cbn [rbind]. rewrite L1. cbn [rbind]. unfold leads_to. cbn [ObjectID].
    rewrite HO. change FirstFreeObjectID with 256. set (c := if k_type (di_location d) =? 132 then _ else _). destruct c as [o' i']. rewrite L2. cbn [rbind]. split.
    + intros di Hdi. destruct (C55_attributes q o' i' (newRescueNode o' i') di (served_new _ _ _) Hdi) as (c & HA). pose proof (getattr_inv q o' i' _ _ _ _ (served_inv _ _ _ _ (served_new q o' i')) HA) as (C1 & C2 & _).
      rewrite HA. cbn [rbind]. exists n', c. auto.
    + intros HN. apply (C55_enoattr q o' i' (newRescueNode o' i') (served_new _ _ _)) in HN as (c & HA). pose proof (getattr_inv q o' i' _ _ _ _ (served_inv _ _ _ _ (served_new q o' i')) HA) as (C1 & C2 & _).
      rewrite HA. cbn [rbind]. exists n', c. auto.
  - rewrite HG. exists n'. reflexivity.
Qed.
Print Assumptions C55_attributes. Print Assumptions C55_enoattr. Print Assumptions C55_open_file. Print Assumptions C55_open_file_fallback. Print Assumptions C54_listing. Print Assumptions C54_lookup_partial.

(** ** extended attributes *)
(** the inode has the extended attributes [xs], in index order *)
Definition xattrs_are (s : stream) (xs : list d_dir_item) : Prop :=
  st_end s = Ok tt /\ Forall2 (fun e d => carries (snd e) (dir_item_fields d) /\ zlen (di_name d) <= 255 /\ 101 + 25 + zlen (ser (dir_item_fields d)) <= 65536) (st_items s) xs.
Definition first_named (xs : list d_dir_item) (name : list byte) : option d_dir_item := List.find (fun d => bytes_eqb (di_name d) name) xs.
(** C56 *)
Theorem C56_list s xs : xattrs_are s xs -> ListXAttr s = Ok (map di_name xs).
Proof.
  intros (HE & HX). unfold ListXAttr. rewrite HE. induction HX as [|[k e] d l xs (HC & HN & _) _ IH]; [reflexivity|]. cbn [xattr_names snd] in *. rewrite (carries_name e d HC HN). cbn [rbind]. rewrite IH. reflexivity.
Qed.
Theorem C56_get s xs name : xattrs_are s xs ->
  GetXAttr s name = match first_named xs name with Some d => Ok (Some (di_data d), OK) | None => Ok (None, ENOATTR) end.
Proof.
  intros (HE & HX). unfold GetXAttr, first_named. rewrite HE. induction HX as [|[k e] d l xs (HC & HN & HZ) _ IH]; [reflexivity|]. cbn [find_xattr snd List.find] in *. rewrite (carries_name e d HC HN). cbn [rbind].
  destruct (bytes_eqb (di_name d) name); [|exact IH]. rewrite (C09_xattr_data d e HC HZ). reflexivity.
Qed.
Theorem C56_listed_iff_found s xs name : xattrs_are s xs ->
  (forall names, ListXAttr s = Ok names -> In name names <-> exists v, GetXAttr s name = Ok (Some v, OK)) /\
  (GetXAttr s name = Ok (None, ENOATTR) <-> ~ In name (map di_name xs)).
Proof.
  intros HX. rewrite (C56_list s xs HX), (C56_get s xs name HX). unfold first_named. assert (HF : (exists d, List.find (fun d => bytes_eqb (di_name d) name) xs = Some d) <-> In name (map di_name xs)).
  { split.
    - intros (d & Hd). apply find_some in Hd as [Hd Hb]. apply bytes_eqb_eq in Hb. apply in_map_iff. exists d. auto.
    - intros HI. apply in_map_iff in HI as (d & Hd & HI). destruct (List.find _ xs) as [d'|] eqn:EF; [exists d'; reflexivity|]. pose proof (find_none _ _ EF d HI) as HY. cbv beta in HY. rewrite Hd, (proj2 (bytes_eqb_eq name name) eq_refl) in HY. discriminate. }
  destruct (List.find _ xs) as [d|]; split.
  - intros names HN. injection HN as <-. split; [intros _; exists (di_data d); reflexivity|intros _; apply HF; exists d; reflexivity].
  - split; [discriminate|]. intros HN. destruct HN. apply HF. exists d. reflexivity.
  - intros names HN. injection HN as <-. split; [intros HI; apply HF in HI as (d & Hd); discriminate|intros (v & Hv); discriminate].
  - split; [intros _ HI; apply HF in HI as (d & Hd); discriminate|reflexivity].
Qed.
(** C64.  Readlink gives the stored target of an inline link; ENODATA without an extent or if the target is not inline *)
Theorem C64_readlink q o i n e : served q o i n -> q_extent0 q o i = Ok e ->
  match e with
  | None => Readlink q n = Ok (None, ENODATA)
  | Some e =>
      (forall d, carries e (fe_inline_fields d) -> fe_type (fi_head d) = 0 -> fe_ram_bytes (fi_head d) = zlen (fi_data d) -> zlen (fi_data d) <= 16384 -> Readlink q n = Ok (Some (fi_data d), OK)) /\
      (forall d, carries e (fe_reg_fields d) -> fe_type (fr_head d) <> 0 -> Readlink q n = Ok (None, ENODATA))
  end.
Proof.
  intros HS HE. destruct (served_inv _ _ _ _ HS) as (H1 & H2 & _). unfold Readlink. rewrite H1, H2, HE. cbn [rbind]. destruct e as [e|]; [|reflexivity]. split.
  - intros d HC HT HR HZ. assert (HI : FileExtentItem_IsInline e = Ok true).
    { unfold FileExtentItem_IsInline. replace (FileExtentItem_Type e) with (Ok (fe_type (fi_head d))); [cbn [rbind]; rewrite HT; reflexivity|]. symmetry. fields HC 9%nat. }
    rewrite HI. cbn [rbind]. rewrite (C10_inline_partial d e HC HR HZ). reflexivity.
  - intros d HC HT. destruct (C06_file_extent d e HC) as (_ & _ & _ & _ & _ & _ & _ & _ & _ & _ & HI). rewrite HI. cbn [rbind]. replace (fe_type (fr_head d) =? 0) with false by lia. reflexivity.
Qed.
Print Assumptions C56_list. Print Assumptions C56_get. Print Assumptions C56_listed_iff_found. Print Assumptions C64_readlink.

(** ** examples and counterexamples *)
Definition di_of (d : d_dir_item) : list byte * slice := ([], sl (ser (dir_item_fields d) ++ [])).
(** a directory with the names x (file 257, later a directory 258) and y (subvolume 300) *)
Definition ds54 : list d_dir_item := [mkdi 257 1 1 s_x; mkdi 300 132 2 s_y; mkdi 258 1 2 s_x].
Definition q54 : queries := mkQueries (fun o d => if (o =? 5) && (d =? 256) then mkStream (map di_of ds54) (Ok tt) else mkStream [] (Ok tt))
  (fun o i => if (o =? 300) && (i =? 256) then Ok (Some (sl (ser (inode_fields ex_inode) ++ []))) else Ok None)
  (fun _ _ => mkStream [] (Ok tt)) (fun _ _ => Ok (Some (sl (ser (fe_inline_fields (ex_inline 3 0)) ++ [])))) (fun _ => Ok (0, 0)) (mkStream [] (Ok tt)).
Lemma q54_holds : dir_holds q54 5 256 ds54.
Proof. split; [reflexivity|]. cbn [q54 q_dirItems]. repeat (apply Forall2_cons; [split; [apply carries_self, fits_b; vm_compute; reflexivity|vm_compute; congruence]|]). apply Forall2_nil. Qed.
Lemma q54_inode : has_inode q54 300 256 ex_inode.
Proof. eexists. split; [reflexivity|]. exact C06_ex_inode. Qed.
Example C54_ex : exists n es, OpenDir q54 (@rev _) (newRescueNode 5 256) = Ok (n, es) /\ es = [(s_y, S_IFDIR); (s_x, S_IFDIR)] /\ served q54 5 256 n /\
  exists n' c, Lookup q54 n s_y = Ok (n', Some (c, true), Some (attr_of 256 ex_inode), OK) /\ n_owner c = 300.
Proof.
  eexists. eexists. split; [vm_compute; reflexivity|]. split; [reflexivity|]. split; [eapply (served_opendir _ _ _ _ (@rev _)); [apply served_new|vm_compute; reflexivity]|].
  eexists. eexists. split; vm_compute; reflexivity.
Qed.
(** C54 is false as stated: x is listed, but looking it up fails (no inode item for 258) *)
Theorem C54_refuted : exists q ds n es, dir_holds q 5 256 ds /\ OpenDir q (fun m => m) (newRescueNode 5 256) = Ok (n, es) /\ In s_x (map fst es) /\
  exists n' c, Lookup q n s_x = Ok (n', c, None, ENOATTR).
Proof. exists q54, ds54. eexists. eexists. split; [exact q54_holds|]. split; [vm_compute; reflexivity|]. split; [left; reflexivity|]. eexists. eexists. vm_compute. reflexivity. Qed.
(** two entries packed into one record (equal name hashes): the second is neither listed nor found *)
Theorem C54_packed_refuted : exists d1 d2 q, st_items (q_dirItems q 5 256) = [([], sl (ser (dir_item_fields d1) ++ ser (dir_item_fields d2)))] /\
  (exists n, OpenDir q (fun m => m) (newRescueNode 5 256) = Ok (n, [(di_name d1, S_IFREG)])) /\ di_name d2 <> di_name d1 /\
  exists n, Lookup q (newRescueNode 5 256) (di_name d2) = Ok (n, None, None, ENOENT).
Proof.
  exists (mkdi 257 1 1 s_x), (mkdi 258 1 1 s_y), (mkQueries (fun _ _ => mkStream [([], sl (ser (dir_item_fields (mkdi 257 1 1 s_x)) ++ ser (dir_item_fields (mkdi 258 1 1 s_y))))] (Ok tt)) (q_inode q54) (q_extents q54) (q_extent0 q54) (q_physical q54) (q_subvolumes q54)).
  split; [reflexivity|]. split; [eexists; vm_compute; reflexivity|]. split; [discriminate|]. eexists; vm_compute; reflexivity.
Qed.
Example C55_ex : exists n, GetAttr q54 (newRescueNode 300 256) = Ok (n, Some (attr_of 256 ex_inode), OK) /\ a_size (attr_of 256 ex_inode) = 1234567.
Proof. destruct (C55_attributes q54 300 256 _ ex_inode (served_new _ _ _) q54_inode) as (n & H). exists n. split; [exact H|reflexivity]. Qed.
(** three extended attributes, two with the same name *)
Definition xattr (n v : list byte) : d_dir_item := {| di_location := {| k_objectid := 0; k_type := 0; k_offset := 0 |}; di_transid := 8; di_type := 8; di_name := n; di_data := v |}.
Definition xs56 : list d_dir_item := [xattr s_x [x01; x02]; xattr s_y []; xattr s_x [x03]].
Example C56_ex : xattrs_are (mkStream (map di_of xs56) (Ok tt)) xs56 /\ GetXAttr (mkStream (map di_of xs56) (Ok tt)) s_x = Ok (Some [x01; x02], OK).
Proof.
  split; [|vm_compute; reflexivity]. split; [reflexivity|]. repeat (apply Forall2_cons; [split; [apply carries_self, fits_b; vm_compute; reflexivity|split; vm_compute; congruence]|]). apply Forall2_nil.
Qed.
(** damaged: an item whose recorded value length exceeds the item makes GetXAttr abort, while ListXAttr lists it *)
Theorem C56_damaged_refuted : exists s, ListXAttr s = Ok [s_x] /\ GetXAttr s s_x = Panic.
Proof.
  exists (mkStream [([], sl (firstn 31 (ser (dir_item_fields (xattr s_x [x01; x02])))))] (Ok tt)). split; vm_compute; reflexivity.
Qed.
Example C64_ex : Readlink q54 (newRescueNode 5 400) = Ok (Some (map zb [104;105;33]), OK).
Proof.
  destruct (C64_readlink q54 5 400 _ _ (served_new _ _ _) eq_refl) as (H & _). apply (H (ex_inline 3 0)); [exact C10_ex|reflexivity|reflexivity|vm_compute; congruence].
Qed.
Print Assumptions C54_refuted. Print Assumptions C54_packed_refuted. Print Assumptions C56_damaged_refuted.

(** Examples for C86. *)
From Verif Require Import Go GoProofs Layout LayoutProofs SpecLayout StructProofs PropsLayout KeyFmt KeyProofs Bolt Store StoreProofs SpecStore RangeProofs PropsStore PropsRange MkIndex IoUtil PropsPath Fs Recover Rescue SpecFs SpecContent SpecMount PropsRescueNode PropsRecoverDfs Forward SpecSurvive PropsSurvive PropsMountSurvive PropsRecoverEx PropsSurviveEx.
From Coq Require Import List ZifyBool ZifyNat ZifyN.
Ltac Zify.zify_post_hook ::= Z.div_mod_to_equations.

(** ** checkers *)
Definition inode_wholeb (s : slice) : bool := wfb s && (148 <=? blen s).
Definition xattr_wholeb (s : slice) : bool := wfb s && (fld s 27 2 <=? 255) && (30 + fld s 27 2 + fld s 25 2 <=? Z.min (blen s) 65535).
Definition inline_wholeb (s : slice) : bool := wfb s && (21 <=? blen s) && (fld s 8 8 <? 2^63) && (21 + Z.min 16384 (fld s 8 8) <=? blen s).
Definition mapped_wholeb (q : queries) (s : slice) : bool := wfb s && (53 <=? blen s) && ((fld s 21 8 =? 0) || okb (q_physical q (fld s 21 8))).
Definition openableb (q : queries) (o i : Z) : bool := okb (st_end (q_extents q o i)) &&
  match st_items (q_extents q o i) with
  | [] => true
  | (_, e) :: _ => (21 <=? blen e) && (if fld e 20 1 =? 0 then inline_wholeb e else forallb (fun x => mapped_wholeb q (snd x)) (st_items (q_extents q o i)))
  end.
Definition linkableb (q : queries) (o i : Z) : bool :=
  match q_extent0 q o i with Ok None => true | Ok (Some e) => wfb e && (21 <=? blen e) && (negb (fld e 20 1 =? 0) || inline_wholeb e) | _ => false end.
Definition lead_in (x : Z * Z * bool) (U : list (Z * Z * bool)) : bool := existsb (fun y => (fst (fst x) =? fst (fst y)) && (snd (fst x) =? snd (fst y)) && Bool.eqb (snd x) (snd y)) U.
Definition node_wholeb (q : queries) (xattrs : Z -> Z -> stream) (U : list (Z * Z * bool)) (x : Z * Z * bool) : bool :=
  let '((o, i), isd) := x in
  match q_inode q o i with Ok None => true | Ok (Some it) => inode_wholeb it | _ => false end &&
  (if isd : bool then okb (st_end (q_dirItems q o i)) && forallb (fun e => dir_item_wholeb (snd e) && lead_in ((if fld (snd e) 8 1 =? 132 then (fld (snd e) 0 8, 256) else (o, fld (snd e) 0 8)), fld (snd e) 29 1 =? 2) U) (st_items (q_dirItems q o i))
   else openableb q o i && linkableb q o i) &&
  (okb (st_end (xattrs o i)) && forallb (fun e => xattr_wholeb (snd e)) (st_items (xattrs o i))).
Definition mount_wholeb (q : queries) (xattrs : Z -> Z -> stream) (U : list (Z * Z * bool)) : bool := lead_in ((5, 256), true) U && forallb (node_wholeb q xattrs U) U.
Lemma lead_in_ok x U : lead_in x U = true -> In x U.
Proof.
  unfold lead_in. intros H. apply existsb_exists in H as ([[a b] c] & Hin & H). destruct x as [[a' b'] c']. cbn [fst snd] in H. apply andb_prop in H as [H H3]. apply andb_prop in H as [H1 H2]. apply Z.eqb_eq in H1, H2. apply Bool.eqb_prop in H3. subst. exact Hin.
Qed.
Lemma inline_wholeb_ok s : inline_wholeb s = true -> inline_whole s.
Proof. unfold inline_wholeb. intros H. apply andb_prop in H as [H H4]. apply andb_prop in H as [H H3]. apply andb_prop in H as [H1 H2]. split; [exact (wfb_ok _ H1)|]. split; [lia|]. split; lia. Qed.
Lemma mapped_wholeb_ok q s : mapped_wholeb q s = true -> mapped_whole q s.
Proof.
  unfold mapped_wholeb. intros H. apply andb_prop in H as [H H3]. apply andb_prop in H as [H1 H2]. split; [exact (wfb_ok _ H1)|]. split; [lia|]. intros HN. apply Z.eqb_neq in HN. rewrite HN in H3. cbn [orb] in H3.
  destruct (q_physical q (fld s 21 8)) as [p| |]; [exists p; reflexivity|discriminate|discriminate].
Qed.
Lemma openableb_ok q o i : openableb q o i = true -> openable q o i.
Proof.
  unfold openableb, openable. intros H. apply andb_prop in H as [H1 H2]. split; [exact (okb_ok _ H1)|]. destruct (st_items (q_extents q o i)) as [|[k e] l]; [exact Logic.I|]. apply andb_prop in H2 as [H2 H3]. split; [lia|].
  split; intros HT; [rewrite HT in H3; exact (inline_wholeb_ok _ H3)|]. apply Z.eqb_neq in HT. rewrite HT in H3. rewrite forallb_forall in H3. intros k' e' Hin. exact (mapped_wholeb_ok _ _ (H3 _ Hin)).
Qed.
Lemma linkableb_ok q o i : linkableb q o i = true -> linkable q o i.
Proof.
  unfold linkableb, linkable. intros H. destruct (q_extent0 q o i) as [[e|]| |]; [right; exists e|left; reflexivity|discriminate|discriminate]. apply andb_prop in H as [H H3]. apply andb_prop in H as [H1 H2]. split; [reflexivity|]. split; [exact (wfb_ok _ H1)|]. split; [lia|].
  intros HT. rewrite HT in H3. exact (inline_wholeb_ok _ H3).
Qed.
Lemma mount_wholeb_ok q xattrs U : mount_wholeb q xattrs U = true -> mount_whole q xattrs.
Proof.
  unfold mount_wholeb. intros H. apply andb_prop in H as [H1 H2]. rewrite forallb_forall in H2.
  assert (HU : forall k isd, leads q k isd -> In (k, isd) U).
  { intros k isd HL. induction HL as [|o d k s _ IH Hin]; [exact (lead_in_ok _ _ H1)|]. specialize (H2 _ IH). unfold node_wholeb in H2. apply andb_prop in H2 as [H2 _]. apply andb_prop in H2 as [_ H2]. apply andb_prop in H2 as [_ H2].
    rewrite forallb_forall in H2. specialize (H2 _ Hin). cbn [snd] in H2. apply andb_prop in H2 as [_ H2]. exact (lead_in_ok _ _ H2). }
  intros o i isd HL. specialize (H2 _ (HU _ _ HL)). unfold node_wholeb in H2. apply andb_prop in H2 as [H2 H5]. apply andb_prop in H2 as [H3 H4]. apply andb_prop in H5 as [H5 H6].
  split; [destruct (q_inode q o i) as [[it|]| |]; [right; exists it; split; [reflexivity|]; unfold inode_wholeb in H3; apply andb_prop in H3 as [H3 H3']; split; [exact (wfb_ok _ H3)|lia]|left; reflexivity|discriminate|discriminate]|].
  split; [intros ->; apply andb_prop in H4 as [H4 H7]; split; [exact (okb_ok _ H4)|]; intros k s Hin; rewrite forallb_forall in H7; specialize (H7 _ Hin); cbn [snd] in H7; apply andb_prop in H7 as [H7 _]; exact (dir_item_wholeb_ok _ H7)|].
  split; [intros ->; apply andb_prop in H4 as [H4 H7]; split; [exact (openableb_ok _ _ _ H4)|exact (linkableb_ok _ _ _ H7)]|].
  split; [exact (okb_ok _ H5)|]. intros k s Hin. rewrite forallb_forall in H6. specialize (H6 _ Hin). cbn [snd] in H6. unfold xattr_wholeb in H6. apply andb_prop in H6 as [H6 H8]. apply andb_prop in H6 as [H6 H7]. split; [exact (wfb_ok _ H6)|]. split; lia.
Qed.
(** ** a directory, a file with inline data, one with extents on the device and a hole, a link, an attribute *)
Definition whole_items : list item :=
  [dir_at 5 256 100 (mkdi 257 1 2 [x61]); dir_at 5 256 200 (mkdi 258 1 1 s_f); dir_at 5 256 300 (mkdi 259 1 7 s_l); dir_at 5 257 100 (mkdi 260 1 1 [x67]);
   irec 5 256 0; irec 5 257 0; irec 5 258 12; irec 5 259 3; irec 5 260 2;
   reg 5 258 0 1002 1 4; reg 5 258 4 0 0 3; inl 5 259 0 (bz_s [97; 47; 103]); inl 5 260 0 (bz_s [120; 121]);
   (5, mkKey 258 24 7, 7, itemv (ser (dir_item_fields (mkdi 0 0 8 s_x)))); (3, mkKey 256 228 1000, 7, itemv (ser (chunk_fields (ch28 20))))].
Example C86_ex : mount_whole (ixq whole_items) (ix_xattrs 50 (mkb whole_items) maxg).
Proof. apply (mount_wholeb_ok _ _ [((5, 256), true); ((5, 257), true); ((5, 258), false); ((5, 259), false); ((5, 260), false)]). vm_compute. reflexivity. Qed.
Example C86_read_ex : bounded (Reader (file_reader ex_dev)).
Proof. intros n off Hn. cbn [device_read]. unfold file_reader. destruct (off <? 0); cbn [fst]; [unfold zlen; cbn; lia|]. unfold zlen. rewrite firstn_length. lia. Qed.
(** ** the claim is false: one short directory item, and no entry of the directory can be looked up *)
Theorem C86_refuted : exists q q', 
  (exists n c a, Lookup q' mount_node s_y = Ok (n, Some (c, false), Some a, OK)) /\
  st_items (q_dirItems q 5 256) <> [] /\ length (st_items (q_dirItems q 5 256)) = length (st_items (q_dirItems q' 5 256)) /\ last (st_items (q_dirItems q 5 256)) ([], nil_data) = last (st_items (q_dirItems q' 5 256)) ([], nil_data) /\
  Lookup q mount_node s_y = Panic /\ forall ord, OpenDir q ord mount_node = Panic.
Proof.
  exists (ixq damaged_items), (ixq sound_items). split; [vm_compute; eexists _, _, _; reflexivity|]. split; [vm_compute; discriminate|]. split; [vm_compute; reflexivity|]. split; [vm_compute; reflexivity|].
  split; [vm_compute; reflexivity|]. intros ord. unfold OpenDir. assert (E : ensureDirItems (ixq damaged_items) mount_node = Panic) by (vm_compute; reflexivity). rewrite E. reflexivity.
Qed.
(** and a file whose inode item claims more than its inline data: within the size the mount reports, a read stops it *)
Definition long_items : list item := [dir_at 5 256 100 (mkdi 258 1 1 s_x); irec 5 256 0; irec 5 258 8192; inl 5 258 0 b_abc].
Theorem C86_size_refuted : exists q n c a f, Lookup q mount_node s_x = Ok (n, Some (c, false), Some a, OK) /\ Open q c = Ok (Some f, OK) /\
  a_size a = 8192 /\ forall dev, file_Read dev f (repeat x00 4096) 4096 = Panic.
Proof.
  assert (H : match Lookup (ixq long_items) mount_node s_x with Ok (n, Some (c, false), Some a, OK) => match Open (ixq long_items) c with Ok (Some (DataFile d), OK) => a_size a = 8192 /\ d = b_abc | _ => False end | _ => False end) by (vm_compute; split; reflexivity).
  destruct (Lookup (ixq long_items) mount_node s_x) as [[[[n [[c [|]]|]] [a|]] [| | | | |]]| |] eqn:EL; try (exfalso; exact H). destruct (Open (ixq long_items) c) as [[[[d|m]|] [| | | | |]]| |] eqn:EO; try (exfalso; exact H). destruct H as [H1 ->].
  exists (ixq long_items), n, c, a, (DataFile b_abc). split; [exact EL|]. split; [exact EO|]. split; [exact H1|]. intros dev. vm_compute. reflexivity.
Qed.
Print Assumptions C86_refuted. Print Assumptions C86_size_refuted.

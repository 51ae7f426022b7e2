(** Examples for C85. *)
From Verif Require Import Go GoProofs Layout LayoutProofs SpecLayout StructProofs PropsLayout KeyFmt KeyProofs Bolt Store StoreProofs SpecStore RangeProofs PropsStore MkIndex IoUtil PropsPath Fs Recover SpecFs SpecContent PropsRecoverDfs Forward SpecSurvive PropsSurvive PropsRecoverEx.
From Coq Require Import List ZifyBool ZifyNat ZifyN.
Ltac Zify.zify_post_hook ::= Z.div_mod_to_equations.

(** ** checkers *)
Definition wfb (s : slice) : bool := (0 <=? s_len s) && (s_len s <=? zlen (s_arr s)).
Definition dir_item_wholeb (s : slice) : bool := wfb s && (30 + Z.min 255 (fld s 27 2) <=? blen s).
Definition extent_wholeb (q : queries) (s : slice) : bool := wfb s && (21 <=? blen s) &&
  (negb (fld s 20 1 =? 0) || (fld s 8 8 <? 2^63) && (21 + Z.min 16384 (fld s 8 8) <=? blen s)) &&
  ((fld s 20 1 =? 0) || (53 <=? blen s) && (negb (fld s 21 8 =? 0) || (fld s 45 8 <=? 2^48)) && ((fld s 21 8 =? 0) || match q_physical q (fld s 21 8) with Ok _ => true | _ => false end)).
Definition size_wholeb (s : slice) : bool := wfb s && (24 <=? blen s) && (fld s 16 8 <? 2^63).
Definition okb {A} (r : Res A) : bool := match r with Ok _ => true | _ => false end.
Definition file_wholeb (q : queries) (o i : Z) : bool := okb (st_end (q_extents q o i)) &&
  forallb (fun p => extent_wholeb q (snd p) && (negb (fld (snd p) 20 1 =? 0) || (0 <=? KOffset (ik_Key (fst p))) && (KOffset (ik_Key (fst p)) <? 2^63))) (st_items (q_extents q o i)) &&
  match q_inode q o i with Ok None => true | Ok (Some it) => size_wholeb it | _ => false end.
Definition link_wholeb (q : queries) (o i : Z) : bool :=
  match q_extent0 q o i with Ok None => true | Ok (Some e) => extent_wholeb q e && ((fld e 20 1 =? 0) || (fld e 45 8 <=? 2^48)) | _ => false end.
Definition step_of (o : Z) (s : slice) : list (Z * Z) :=
  match DirItem_Type s, DirItem_Location s with
  | Ok t, Ok l => if KType l =? RootItemKey then [(ObjectID l, FirstFreeObjectID)] else if t =? FtDir then [(o, ObjectID l)] else []
  | _, _ => []
  end.
Definition pair_in (k : Z * Z) (l : list (Z * Z)) : bool := existsb (fun k' => (fst k =? fst k') && (snd k =? snd k')) l.
Definition dir_wholeb (q : queries) (U : list (Z * Z)) (k : Z * Z) : bool :=
  let st := q_dirItems q (fst k) (snd k) in okb (st_end st) &&
  forallb (fun e => let s := snd e in dir_item_wholeb s && forallb (fun k' => pair_in k' U) (step_of (fst k) s) &&
    ((fld s 8 1 =? 132) || negb (fld s 29 1 =? 1) || file_wholeb q (fst k) (fld s 0 8)) &&
    ((fld s 8 1 =? 132) || negb (fld s 29 1 =? 7) || link_wholeb q (fst k) (fld s 0 8))) (st_items st).
Definition volume_wholeb (q : queries) (U : list (Z * Z)) : bool :=
  okb (st_end (q_subvolumes q)) && pair_in (FSTreeObjectID, FirstFreeObjectID) U &&
  forallb (fun e => pair_in (ObjectID (ik_Key (fst e)), FirstFreeObjectID) U) (st_items (q_subvolumes q)) &&
  forallb (dir_wholeb q U) U.

Lemma wfb_ok s : wfb s = true -> slice_wf s.
Proof. unfold wfb, slice_wf, scap. intros H. lia. Qed.
Lemma okb_ok (r : Res unit) : okb r = true -> r = Ok tt.
Proof. destruct r as [[]| |]; [reflexivity|discriminate|discriminate]. Qed.
Lemma dir_item_wholeb_ok s : dir_item_wholeb s = true -> dir_item_whole s.
Proof. unfold dir_item_wholeb. intros H. apply andb_prop in H as [H1 H2]. split; [exact (wfb_ok _ H1)|lia]. Qed.
Lemma extent_wholeb_ok q s : extent_wholeb q s = true -> extent_whole q s.
Proof.
  unfold extent_wholeb. intros H. apply andb_prop in H as [H H4]. apply andb_prop in H as [H H3]. apply andb_prop in H as [H1 H2]. split; [exact (wfb_ok _ H1)|]. split; [lia|].
  split; intros HT; [rewrite HT in H3; change (0 =? 0) with true in H3; cbn [negb orb] in H3; apply andb_prop in H3 as [H3 H5]; split; lia|].
  apply Z.eqb_neq in HT. rewrite HT in H4. cbn [orb] in H4. apply andb_prop in H4 as [H4 H6]. apply andb_prop in H4 as [H4 H5]. split; [lia|]. split; intros HD.
  - rewrite HD in H5. cbn [negb orb Z.eqb] in H5. lia.
  - apply Z.eqb_neq in HD. rewrite HD in H6. cbn [orb] in H6. destruct (q_physical q (fld s 21 8)) as [p| |]; [exists p; reflexivity|discriminate|discriminate].
Qed.
Lemma size_wholeb_ok s : size_wholeb s = true -> size_whole s.
Proof. unfold size_wholeb. intros H. apply andb_prop in H as [H H3]. apply andb_prop in H as [H1 H2]. split; [exact (wfb_ok _ H1)|]. split; lia. Qed.
Lemma file_wholeb_ok q o i : file_wholeb q o i = true -> file_whole q o i.
Proof.
  unfold file_wholeb. intros H. apply andb_prop in H as [H H3]. apply andb_prop in H as [H1 H2]. split; [exact (okb_ok _ H1)|]. split.
  - intros k e Hin. rewrite forallb_forall in H2. specialize (H2 _ Hin). cbn [fst snd] in H2. apply andb_prop in H2 as [H2 H4]. split; [exact (extent_wholeb_ok _ _ H2)|]. intros HT. rewrite HT in H4. change (0 =? 0) with true in H4. cbn [negb orb] in H4. apply andb_prop in H4 as [H4 H5]. split; lia.
  - destruct (q_inode q o i) as [[it|]| |]; [right; exists it; split; [reflexivity|exact (size_wholeb_ok _ H3)]|left; reflexivity|discriminate|discriminate].
Qed.
Lemma link_wholeb_ok q o i : link_wholeb q o i = true -> link_whole q o i.
Proof.
  unfold link_wholeb. intros H. destruct (q_extent0 q o i) as [[e|]| |] eqn:EQ; [right; exists e|left; exact EQ|discriminate|discriminate]. apply andb_prop in H as [H1 H2]. split; [exact EQ|]. split; [exact (extent_wholeb_ok _ _ H1)|].
  intros HT. apply Z.eqb_neq in HT. rewrite HT in H2. cbn [orb] in H2. lia.
Qed.
Lemma pair_in_ok k l : pair_in k l = true -> In k l.
Proof. unfold pair_in. intros H. apply existsb_exists in H as ([a b] & Hin & H). destruct k as [c d]. cbn [fst snd] in H. assert (c = a) by lia. assert (d = b) by lia. subst. exact Hin. Qed.
Lemma volume_wholeb_ok q U : volume_wholeb q U = true -> volume_whole q.
Proof.
  unfold volume_wholeb. intros H. apply andb_prop in H as [H H4]. apply andb_prop in H as [H H3]. apply andb_prop in H as [H1 H2]. rewrite forallb_forall in H3, H4.
  assert (HU : forall k, reachable q k -> In k U).
  { intros k HR. induction HR as [k [->|(e & He & ->)]|k k' _ IH (e & He & name & t & loc & _ & _ & HT & HL & HK)]; [exact (pair_in_ok _ _ H2)|exact (pair_in_ok _ _ (H3 _ He))|].
    specialize (H4 _ IH). unfold dir_wholeb in H4. apply andb_prop in H4 as [_ H4]. rewrite forallb_forall in H4. specialize (H4 _ He). apply andb_prop in H4 as [H4 _]. apply andb_prop in H4 as [H4 _]. apply andb_prop in H4 as [_ H4].
    rewrite forallb_forall in H4. apply pair_in_ok, H4. unfold step_of. rewrite HT, HL. destruct HK as [[HK ->]|(HK & -> & ->)]; [rewrite HK; left; reflexivity|]. apply Z.eqb_neq in HK. rewrite HK, Z.eqb_refl. left. reflexivity. }
  split; [exact (okb_ok _ H1)|]. intros o d HR. specialize (H4 _ (HU _ HR)). unfold dir_wholeb in H4. cbn [fst snd] in H4. apply andb_prop in H4 as [H5 H4]. split; [exact (okb_ok _ H5)|]. intros k s Hin. rewrite forallb_forall in H4. specialize (H4 _ Hin). cbn [snd] in H4.
  apply andb_prop in H4 as [H4 H8]. apply andb_prop in H4 as [H4 H7]. apply andb_prop in H4 as [H6 _]. split; [exact (dir_item_wholeb_ok _ H6)|]. split; intros HT HT'; apply Z.eqb_neq in HT.
  - rewrite HT, HT' in H7. exact (file_wholeb_ok _ _ _ H7).
  - rewrite HT, HT' in H8. exact (link_wholeb_ok _ _ _ H8).
Qed.

(** ** the hypotheses of C85_completes_partial hold for the index of PropsRecoverEx: a directory, files with inline data, a hole and an extent on the device, a link *)
Example C85_ex : makes_progress (file_reader ex_dev) /\ advances (mkb ex_items) /\ volume_whole (ix_queries 50 (mkb ex_items) maxg) /\ (1 + length (mkb ex_items) < 50)%nat.
Proof.
  split; [apply file_reader_progress|]. split; [apply advancesb_ok; vm_compute; reflexivity|]. split; [|vm_compute; lia].
  apply (volume_wholeb_ok _ [(5, 256); (5, 257)]). vm_compute. reflexivity.
Qed.
(** ** the claim is false: one directory item that is a byte short, and the file of the other item is not restored *)
Definition short (l : list byte) : list byte := firstn (length l - 1) l.
Definition damaged_items : list item :=
  [(5, mkKey 256 84 100, 7, itemv (short (ser (dir_item_fields (mkdi 257 1 1 s_x))))); dir_at 5 256 200 (mkdi 258 1 1 s_y); irec 5 256 0; irec 5 258 3; inl 5 258 0 b_abc].
Definition sound_items : list item :=
  [dir_at 5 256 100 (mkdi 257 1 1 s_x); dir_at 5 256 200 (mkdi 258 1 1 s_y); irec 5 256 0; irec 5 258 3; inl 5 258 0 b_abc].
Theorem C85_refuted : exists b b' gen dest, advances b /\ advances b' /\
  (** without the damage *)
  (let r := doRecoverFiles 10 10 E0 nodev (ix_queries 50 b' gen) false dest (w0 []) in
   (exists v, snd r = Ret (true, v)) /\ look (w_fs (fst r)) [s_d; s_y] = Some (NFile b_abc)) /\
  (** with it *)
  (let r := doRecoverFiles 10 10 E0 nodev (ix_queries 50 b gen) false dest (w0 []) in
   snd r = OPanic /\ look (w_fs (fst r)) [s_d; s_y] = None).
Proof.
  exists (mkb damaged_items), (mkb sound_items), maxg, (abs1 s_d). split; [apply advancesb_ok; vm_compute; reflexivity|]. split; [apply advancesb_ok; vm_compute; reflexivity|].
  split; (split; [vm_compute; try (eexists; reflexivity); reflexivity|vm_compute; reflexivity]).
Qed.
Print Assumptions C85_refuted.

(** C77, C78: a concrete image of which a leaf of the main tree is lost: the directory a loses its entry g, and
    the subvolume s is no longer named by any directory. *)
From Verif Require Import Go GoProofs Layout LayoutProofs SpecLayout LeafProofs StructProofs PropsLayout KeyFmt KeyProofs Bolt Store StoreProofs SpecStore RangeProofs PropsStore PropsRange Session PropsSession IoUtil Recon PropsRecon PropsReconEx RangeItems.
From Verif Require Import PropsPath ToString Fs Recover SpecFs SpecContent SpecTree SpecDisk DiskProofs PropsDest PropsDisk.
From Verif Require Import PropsRecoverEx PropsTreeEx PropsDiskEx SpecDamage PropsDamageEx SpecLoss LossProofs PropsLoss PropsLossDisk.
From Coq Require Import ZifyBool ZifyNat ZifyN Relations.
Ltac Zify.zify_post_hook ::= Z.div_mod_to_equations.

Definition eA : list leaf_entry := [d_dir 256 100 257 1 2 s_a; d_dir 256 200 258 1 1 s_f; d_ino 258 3; d_inl 258 0 b_abc].
Definition eB : list leaf_entry := [d_dir 256 400 256 132 2 s_s; d_dir 257 100 260 1 1 s_g; d_ino 260 2; d_inl 260 0 (bz_s [120; 121])].
Definition e1 : list leaf_entry := [de 256 132 0 (repeat x00 439)].
Definition e_blocks : list (list byte) := [d_leaf 5 eA; d_leaf 5 eB; d_leaf 1 e1; d_leaf 256 de256].
(** the second block is overwritten with zeros *)
Definition e_blocks' : list (list byte) := [d_leaf 5 eA; repeat x00 4096; d_leaf 1 e1; d_leaf 256 de256].
Definition e_is : list insertion := d_items 5 eA ++ d_items 5 eB ++ d_items 1 e1 ++ d_items 256 de256.
Definition e_iss' : list (list insertion) := [d_items 5 eA; []; d_items 1 e1; d_items 256 de256].
Definition e_is' : list insertion := concat e_iss'.
Definition e_tree : entries := [(s_a, TDir [(s_g, TFile (bz_s [120; 121]))]); (s_f, TFile b_abc); (s_s, TDir [(s_x, TFile b_abc)])].
Definition qe : queries := table e_is [].
Definition qe' : queries := table e_is' [].
Lemma e_lens : Forall (fun bl => zlen bl = 4096) e_blocks. Proof. repeat constructor; vm_compute; reflexivity. Qed.
Lemma e_lens' : Forall (fun bl => zlen bl = 4096) e_blocks'. Proof. repeat constructor; vm_compute; reflexivity. Qed.
Lemma e_ok' : Forall2 (contributes id0 4096) e_blocks' e_iss'.
Proof.
  assert (H : forall o es, leaf_ok (dh o (zlen es)) 4096 es (d_gap es) -> es <> [] -> o < 2^64 - 1 -> contributes id0 4096 (d_leaf o es) (d_items o es)) by (intros; apply c_leaf; auto; reflexivity).
  repeat (apply Forall2_cons; [first [apply H; [unfold leaf_ok; repeat split; try (apply fits_b); vm_compute; reflexivity|discriminate|reflexivity]|apply c_foreign; left; vm_compute; discriminate]|]). apply Forall2_nil.
Qed.
#[local] Opaque id0.
Lemma e_gen i : In i e_is' -> i_gen i = 7.
Proof. assert (HF : forallb (fun i => i_gen i =? 7) e_is' = true) by (vm_cast_no_check (eq_refl true)). rewrite forallb_forall in HF. intros Hi. apply Z.eqb_eq, HF, Hi. Qed.
Lemma e_loc i loc : In i e_is' -> KType (i_key i) = 84 -> DirItem_Location (sl (i_data i)) = Ok loc -> ObjectID loc < 2^64 - 1.
Proof.
  assert (HF : forallb (fun i => match DirItem_Location (sl (i_data i)) with Ok loc => ObjectID loc <? 2^64 - 1 | _ => true end || negb (KType (i_key i) =? 84)) e_is' = true) by (vm_cast_no_check (eq_refl true)).
  rewrite forallb_forall in HF. intros Hi Ht Hl. specialize (HF i Hi). cbn beta in HF. rewrite Hl, Ht in HF. clear -HF. lia.
Qed.
Lemma e_type i : In i e_is' -> KType (i_key i) < 255.
Proof. assert (HF : forallb (fun i => KType (i_key i) <? 255) e_is' = true) by (vm_cast_no_check (eq_refl true)). rewrite forallb_forall in HF. intros Hi. apply Z.ltb_lt, HF, Hi. Qed.
Lemma e_sep i : In i e_is' -> (KType (i_key i) = 84 \/ KType (i_key i) = 108 \/ KType (i_key i) = 228) -> separate e_is' (i_owner i) (mkKey (ObjectID (i_key i)) (KType (i_key i)) (2^64 - 1)).
Proof.
  assert (HF : forallb (fun i => negb ((KType (i_key i) =? 84) || (KType (i_key i) =? 108) || (KType (i_key i) =? 228)) || sepb e_is' (i_owner i) (mkKey (ObjectID (i_key i)) (KType (i_key i)) (2^64 - 1))) e_is' = true) by (vm_cast_no_check (eq_refl true)).
  intros Hi Ht. apply sepb_ok. rewrite forallb_forall in HF. specialize (HF i Hi). cbn beta in HF. apply orb_prop in HF as [HF|HF]; [|exact HF]. exfalso. apply negb_true_iff, orb_false_iff in HF as [HF H3]. apply orb_false_iff in HF as [H1 H2]. clear -H1 H2 H3 Ht. lia.
Qed.
Lemma e_sub : separate e_is' 1 (mkKey (2^64 - 256) 132 (2^64 - 1)).
Proof. apply sepb_ok. vm_cast_no_check (eq_refl true). Qed.
Lemma e_sub256 : exists i, In i (subvols e_is') /\ ObjectID (i_key i) = 256.
Proof.
  assert (HF : existsb (fun i => ObjectID (i_key i) =? 256) (subvols e_is') = true) by (vm_cast_no_check (eq_refl true)). apply existsb_exists in HF as (i & Hi & H). exists i. split; [exact Hi|]. apply Z.eqb_eq. exact H.
Qed.
#[local] Opaque e_is'.
Lemma e_orderly : orderly e_is'.
Proof.
  split; [exact e_loc|]. split; [intros i Hi; split; [rewrite (e_gen i Hi); lia|exact (e_type i Hi)]|]. split.
  - intros o t id Ht Hne. split.
    + intros i j Hi Hj. apply filter_In in Hi as [Hi _], Hj as [Hj _]. rewrite !e_gen; [reflexivity|apply (tree_in e_is' j o Hj)|apply (tree_in e_is' i o Hi)].
    + destruct (group e_is' o t id) as [|i l] eqn:E; [congruence|]. assert (Hi : In i (group e_is' o t id)) by (rewrite E; left; reflexivity). clear E l Hne.
      apply filter_In in Hi as [Hi Hk]. cbn beta in Hk. apply andb_prop in Hk as [Hk1 Hk2]. apply Z.eqb_eq in Hk1, Hk2. destruct (tree_in e_is' i o Hi) as [Hi' Ho].
      pose proof (e_sep i Hi') as H. rewrite Ho, Hk1, Hk2 in H. exact (H Ht).
  - intros _. split; [|split; [exact e_sub|exact e_sub256]].
    intros i j Hi Hj. apply filter_In in Hi as [Hi _], Hj as [Hj _]. rewrite !e_gen; [reflexivity|apply (tree_in e_is' j 1 Hj)|apply (tree_in e_is' i 1 Hi)].
Qed.
#[local] Transparent e_is'.
Lemma e_chunks : chunks_are e_is' [].
Proof. split; [|exact Logic.I]. set (g := group e_is' 3 228 256). vm_compute in g. subst g. apply Forall2_nil. Qed.
(** one version of every item: what is left is the newest *)
Definition same_itemb (i j : insertion) : bool := (i_owner i =? i_owner j) && same_keyb (i_key i) (i_key j).
Lemma one_version is is' : (forall i j, In i is -> In j is -> i_owner i = i_owner j -> i_key i = i_key j -> i = j) -> (forall i, In i is' -> In i is) -> newest_left is is'.
Proof.
  intros HU HI o k i H. unfold item_at in *. apply find_some in H as [H1 H2]. apply same_keyb_eq in H2. destruct (tree_in is' i o H1) as [T1 T2]. pose proof (HI i T1) as Hi.
  destruct (tree_has is o i Hi T2) as (j & J1 & J2 & _). destruct (tree_in is j o J1) as [J3 J4]. assert (j = i) by (apply HU; congruence). subst j. subst k. exact (find_key _ _ (tree_sorted is o) J1).
Qed.
Lemma nodup_items is : (fix go (l : list insertion) := match l with [] => true | i :: r => negb (existsb (same_itemb i) r) && go r end) is = true ->
  forall i j, In i is -> In j is -> i_owner i = i_owner j -> i_key i = i_key j -> i = j.
Proof.
  assert (S : forall i j, i_owner i = i_owner j -> i_key i = i_key j -> same_itemb i j = true) by (intros i j A B; unfold same_itemb; rewrite A, B; apply andb_true_iff; split; [lia|apply same_keyb_eq; reflexivity]).
  induction is as [|x is IH]; intros H i j Hi Hj Eo Ek; [destruct Hi|]. apply andb_prop in H as [H1 H2]. apply negb_true_iff in H1.
  assert (NX : forall y, In y is -> same_itemb x y = true -> False) by (intros y Hy Hs; assert (existsb (same_itemb x) is = true) by (apply existsb_exists; exists y; auto); congruence).
  destruct Hi as [->|Hi], Hj as [->|Hj]; [reflexivity|exfalso; apply (NX j Hj); apply S; assumption|exfalso; apply (NX i Hi); apply S; congruence|exact (IH H2 i j Hi Hj Eo Ek)].
Qed.
Lemma e_newest : newest_left e_is e_is'.
Proof.
  apply one_version; [apply nodup_items; vm_cast_no_check (eq_refl true)|]. unfold e_is, e_is', e_iss'. cbn [concat]. intros i Hi. repeat rewrite in_app_iff in *. cbn [In] in Hi. tauto.
Qed.
(** the volume before the damage *)
Section Vol.
  Variable D : list byte.
  Lemma esh_f : file_shows qe D 5 258 b_abc.
  Proof.
    exists [Inline 0 b_abc]. eexists. split; [st (st_items (q_extents qe 5 258)); apply Forall2_cons; [left; eexists; split; [vm_compute; reflexivity|split; vm_compute; reflexivity]|apply Forall2_nil]|].
    split; [repeat constructor; vm_compute; reflexivity|]. split; [vm_compute; reflexivity|]. split; [vm_compute; reflexivity|]. split; [vm_compute; reflexivity|]. split; [vm_compute; reflexivity|]. intros j Hj. bytes j Hj 3.
  Qed.
  Lemma esh_g : file_shows qe D 5 260 (bz_s [120; 121]).
  Proof.
    exists [Inline 0 (bz_s [120; 121])]. eexists. split; [st (st_items (q_extents qe 5 260)); apply Forall2_cons; [left; eexists; split; [vm_compute; reflexivity|split; vm_compute; reflexivity]|apply Forall2_nil]|].
    split; [repeat constructor; vm_compute; reflexivity|]. split; [vm_compute; reflexivity|]. split; [vm_compute; reflexivity|]. split; [vm_compute; reflexivity|]. split; [vm_compute; reflexivity|]. intros j Hj. bytes j Hj 2.
  Qed.
  Lemma esh_x : file_shows qe D 256 261 b_abc.
  Proof.
    exists [Inline 0 b_abc]. eexists. split; [st (st_items (q_extents qe 256 261)); apply Forall2_cons; [left; eexists; split; [vm_compute; reflexivity|split; vm_compute; reflexivity]|apply Forall2_nil]|].
    split; [repeat constructor; vm_compute; reflexivity|]. split; [vm_compute; reflexivity|]. split; [vm_compute; reflexivity|]. split; [vm_compute; reflexivity|]. split; [vm_compute; reflexivity|]. intros j Hj. bytes j Hj 3.
  Qed.
  Lemma esh_s : dir_shows qe D 256 256 [(s_x, TFile b_abc)] [(256, 256)].
  Proof. apply (shows_dir qe (shown qe D) 256 256 _ []); [vm_compute; reflexivity|]. st (st_items (q_dirItems qe 256 256)). eapply shows_file; [sys|vm_compute; discriminate|exact esh_x|nm|intros []|apply shows_nil]. Qed.
  Lemma e_shows : volume_shows qe D e_tree.
  Proof.
    exists e_tree, [(5, 256); (5, 257); (256, 256)], []. split; [|split; [|split; [|split; [|split]]]].
    - apply (shows_dir qe (shown qe D) 5 256 e_tree [(5, 257); (256, 256)]); [vm_compute; reflexivity|]. st (st_items (q_dirItems qe 5 256)).
      apply (shows_sub qe (shown qe D) 5 _ _ _ s_a 5 257 [(s_g, TFile (bz_s [120; 121]))] _ [(5, 257)] [(256, 256)]).
      + vm_compute; reflexivity.
      + nd. right. split; [vm_compute; discriminate|split; vm_compute; reflexivity].
      + apply (shows_dir qe (shown qe D) 5 257 _ []); [vm_compute; reflexivity|]. st (st_items (q_dirItems qe 5 257)). eapply shows_file; [sys|vm_compute; discriminate|exact esh_g|nm|intros []|apply shows_nil].
      + nm.
      + vm_compute. intuition discriminate.
      + eapply shows_file; [sys|vm_compute; discriminate|exact esh_f|nm|vm_compute; intuition discriminate|].
        apply (shows_sub qe (shown qe D) 5 _ _ _ s_s 256 256 [(s_x, TFile b_abc)] _ [(256, 256)] []).
        * vm_compute; reflexivity.
        * nd. left. split; vm_compute; reflexivity.
        * exact esh_s.
        * nm.
        * intros [].
        * apply shows_nil.
    - repeat constructor; vm_compute; intuition discriminate.
    - st (st_items (q_subvolumes qe)). apply subs_seen; [vm_compute; auto|]. apply subs_nil.
    - vm_compute; reflexivity.
    - reflexivity.
    - intros n Hn [].
  Qed.
End Vol.
Lemma e_subs' e : In e (st_items (q_subvolumes qe')) -> sub_top e = (256, 256).
Proof. st (st_items (q_subvolumes qe')). intros [<-|[]]. vm_compute. reflexivity. Qed.
Lemma e_subs e : In e (st_items (q_subvolumes qe)) -> sub_top e = (256, 256).
Proof. st (st_items (q_subvolumes qe)). intros [<-|[]]. vm_compute. reflexivity. Qed.
Lemma e_parents : parents_first qe.
Proof. unfold parents_first. set (l := st_items (q_subvolumes qe)). assert (HL : exists x, l = [x]) by (eexists; vm_compute; reflexivity). destruct HL as (x & ->). constructor; constructor. Qed.
Lemma e_names : no_made_up qe.
Proof.
  intros e k di He HI. apply e_subs in He. replace (made_up e) with (subvol_prefix ++ dec 256) by (unfold made_up; unfold sub_top in He; congruence). clear He e. revert HI. st (st_items (q_dirItems qe FSTreeObjectID FirstFreeObjectID)).
  intros HI. repeat (destruct HI as [HI|HI]; [assert (X : forall (a c : list byte) (b d : slice), (a, b) = (c, d) -> b = d) by congruence; apply X in HI; subst di; vm_compute; discriminate|]). destruct HI.
Qed.
(** no directory leads to the subvolume any more *)
Lemma e_orphan e : In e (st_items (q_subvolumes qe')) -> orphan qe' e.
Proof.
  intros He. split.
  - rewrite (e_subs' e He). assert (HC : closed qe' [(5, 256); (5, 257)]).
    { intros y x Hy ([k di] & H1 & H2). cbn [snd] in H2. destruct Hy as [<-|[<-|[]]]; cbn [fst snd] in H1, H2; revert H1.
      - st (st_items (q_dirItems qe' 5 256)). intros [H|[H|[]]].
        + right. left. symmetry. apply (TreeDamage.names_key 5 di); [exact H2|]. assert (X : forall (a c : list byte) (b d : slice), (a, b) = (c, d) -> b = d) by congruence. apply X in H. subst di. nd. right. split; [vm_compute; discriminate|split; vm_compute; reflexivity].
        + exfalso. assert (X : forall (a c : list byte) (b d : slice), (a, b) = (c, d) -> b = d) by congruence. apply X in H. subst di. destruct H2 as (n & t & loc & _ & _ & A & B & [[C _]|(_ & C & _)]); [apply (f_equal (fun r => match r with Ok l => KType l | _ => 0 end)) in B; rewrite C in B; vm_compute in B; discriminate|rewrite C in A; vm_compute in A; discriminate].
      - st (st_items (q_dirItems qe' 5 257)). intros []. }
    intros HB. pose proof (closed_below _ _ _ _ HC HB (or_introl eq_refl)) as [H|[H|[]]]; discriminate.
  - intros e' He' HN. destruct HN. rewrite (e_subs' e He), (e_subs' e' He'). reflexivity.
Qed.
Lemma e_short : paths_short (abs1 s_d) e_tree.
Proof. intros r Hr. apply in_all_paths in Hr. revert r Hr. apply Forall_forall. vm_compute. repeat constructor. Qed.
Lemma e_empty r : r <> [] -> look F_d ([s_d] ++ r) = None.
Proof.
  intros Hr. destruct (look F_d ([s_d] ++ r)) as [nd|] eqn:E; [|reflexivity]. assert (H1 : In ([s_d] ++ r) (map fst F_d)) by (apply look_In; [discriminate|congruence]). destruct H1 as [H1|[H1|[]]]; [|discriminate]. destruct r; [congruence|discriminate].
Qed.
(** what is untouched by the loss *)
Section Left.
  Variables D D' : list byte.
  Notation left := (untouched qe qe' D D' (fun _ => False)).
  Lemma no_disk q l xs off n src : Forall2 (is_extent q) l xs -> (forall e, In e l -> FileExtentItem_Type (snd e) = Ok 0) -> In (Disk off n src) xs -> False.
  Proof.
    induction 1 as [|e x l xs Hx HF IH]; intros Ht Hin; [destruct Hin|]. destruct Hin as [->|Hin]; [|apply IH; auto with *].
    specialize (Ht e (or_introl eq_refl)). destruct e as [k e]. cbn [snd] in Ht. unfold is_extent in Hx. destruct Hx as [(d & _ & _ & H)|[(t & m & _ & _ & _ & _ & H)|(t & m & nr & id & ph & o & H & Hn & _)]]; [discriminate|discriminate|congruence].
  Qed.
  Lemma left_f : good_file left 5 258.
  Proof.
    split; [exists b_abc; apply esh_f|]. split; [vm_compute; reflexivity|]. split; [vm_compute; reflexivity|].
    intros xs off n src p HF HI. exfalso. refine (no_disk _ _ _ _ _ _ HF _ HI). it (st_items (q_extents qe 5 258)). intros e [<-|[]]. vm_compute. reflexivity.
  Qed.
  Lemma left_x : good_file left 256 261.
  Proof.
    split; [exists b_abc; apply esh_x|]. split; [vm_compute; reflexivity|]. split; [vm_compute; reflexivity|].
    intros xs off n src p HF HI. exfalso. refine (no_disk _ _ _ _ _ _ HF _ HI). it (st_items (q_extents qe 256 261)). intros e [<-|[]]. vm_compute. reflexivity.
  Qed.
  Lemma reach_f : reaches qe' left 5 256 [s_f].
  Proof. eapply intact_entry; [it (st_items (q_dirItems qe' 5 256)); right; left; reflexivity|]. eapply intact_file; [sys|vm_compute; discriminate|exact left_f]. Qed.
  Lemma reach_a : reaches qe' left 5 256 [s_a].
  Proof.
    eapply intact_entry; [it (st_items (q_dirItems qe' 5 256)); left; reflexivity|]. apply (intact_sub _ _ 5 _ s_a 5 257); [vm_compute; reflexivity|nd; right; split; [discriminate|split; reflexivity]|]. constructor.
  Qed.
  Lemma reach_x : reaches qe' left 256 256 [s_x].
  Proof. eapply intact_entry; [it (st_items (q_dirItems qe' 256 256)); left; reflexivity|]. eapply intact_file; [sys|vm_compute; discriminate|exact left_x]. Qed.
  Lemma e_made e : In e (st_items (q_subvolumes qe')) -> made_up e = subvol_prefix ++ dec 256.
  Proof. intros H. apply e_subs' in H. unfold made_up. unfold sub_top in H. congruence. Qed.
  Lemma e_some : exists e, In e (st_items (q_subvolumes qe')).
  Proof. it (st_items (q_subvolumes qe')). eexists. left. reflexivity. Qed.
  Lemma e_paths e sub ks s : In e (st_items (q_subvolumes qe')) -> dir_shows qe D (fst (sub_top e)) (snd (sub_top e)) sub ks -> tree_at (TDir sub) s <> None ->
     path_arg (sub_path (Clean (abs1 s_d)) (made_up e :: s)) = true.
  Proof.
    intros He HS Ht. rewrite (e_made e He). rewrite (e_subs' e He) in HS. cbn [fst snd] in HS.
    destruct (proj1 (shows_fun qe D) _ _ _ _ (esh_s D) _ _ HS) as [-> _]. apply in_all_paths in Ht. revert s Ht. apply Forall_forall. vm_compute. repeat constructor.
  Qed.
End Left.
Lemma subs_in e : In e (st_items (q_subvolumes qe')) -> forall D sub ks, dir_shows qe D (fst (sub_top e)) (snd (sub_top e)) sub ks -> tree_at (TDir sub) [s_x] = Some (NFile b_abc).
Proof. intros He D sub ks H. rewrite (e_subs' e He) in H. cbn [fst snd] in H. destruct (proj1 (shows_fun qe D) _ _ _ _ (esh_s D) _ _ H) as [-> _]. vm_compute. reflexivity. Qed.
(** the index of the damaged volume: f and the directory a are where they were, the subvolume below a made-up
    name, and nothing is at the places of what is lost *)
Example C77_ex cfuel : 2^64 < Z.of_nat cfuel -> exists fuel w' v,
  doRecoverFiles fuel cfuel E0 (file_reader ex_dev) qe' false (abs1 s_d) (w0 F_d) = (w', Ret (true, v)) /\
  look (w_fs w') [s_d; s_f] = Some (NFile b_abc) /\ look (w_fs w') [s_d; s_a] = Some NDir /\
  look (w_fs w') [s_d; subvol_prefix ++ dec 256; s_x] = Some (NFile b_abc).
Proof.
  intros Hc. assert (HDm : damaged (fun _ => False) ex_dev (file_reader ex_dev)) by (destruct (file_reader_good ex_dev) as [A B]; split; [exact A|intros n off H1 H2 H3 _; exact (B n off H1 H2 H3)]).
  destruct (C77_missing_items cfuel E0 (file_reader ex_dev) ex_dev ex_dev qe qe' _ false (abs1 s_d) (w0 F_d) [s_d] e_tree ltac:(intros n k; reflexivity) HDm ltac:(vm_compute; reflexivity) Hc
    (e_shows _) e_parents e_names (table_misses e_is e_is' e_newest []) eq_refl vol_dest e_empty e_short (e_paths ex_dev)) as (f0 & H).
  destruct (H f0 (le_n f0)) as (w' & v & H1 & H2 & H3 & _). exists f0, w', v. split; [exact H1|]. split; [exact (H2 [s_f] (reach_f _ _))|]. split; [exact (H2 [s_a] (reach_a _ _))|].
  destruct e_some as (e & He). destruct (H3 e He (e_orphan e He)) as (sub & ks & HS & H4). specialize (H4 [s_x]). rewrite (e_made e He), (subs_in e He _ _ _ HS) in H4. apply H4. rewrite (e_subs' e He). exact (reach_x _ _).
Qed.
#[local] Opaque e_blocks e_blocks' e_is e_is' e_iss' e_tree qe qe'.
(** the same from the damaged image: recon, then recover *)
Example C78_ex : forall N cfuel, enough N -> 2^64 < Z.of_nat cfuel ->
  let D' := image_of 4096 e_blocks' N in
  exists b ix, doScanFS true true PropsRecon.no_faults (file_dev D') 4096 id0 None = (Some b, XOk) /\ OpenReadOnly (Some b) = Ok (Some b, Some ix) /\
    forall rfuel, (length b + 1 < rfuel)%nat -> exists fuel w' v,
      doRecoverFiles fuel cfuel E0 (file_reader D') (ix_queries rfuel b (ix_Generation ix)) false (abs1 s_d) (w0 F_d) = (w', Ret (true, v)) /\
      look (w_fs w') [s_d; s_f] = Some (NFile b_abc) /\ look (w_fs w') [s_d; s_a] = Some NDir /\
      look (w_fs w') [s_d; subvol_prefix ++ dec 256; s_x] = Some (NFile b_abc).
Proof.
  intros N cfuel HN Hc D'. set (D := image_of 4096 e_blocks N). assert (B4 : zlen e_blocks' = 4) by (vm_compute; reflexivity). assert (B4' : zlen e_blocks = 4) by (vm_compute; reflexivity).
  destruct (blocks_image id0 e_blocks' e_iss' N HN e_lens' ltac:(rewrite B4; reflexivity) e_ok') as [HB HI]. fold D' in HB, HI. change (concat e_iss') with e_is' in HI.
  assert (HD : zlen D' = zlen D) by (unfold D, D'; rewrite !image_of_len, B4, B4'; [reflexivity|lia|unfold enough in HN; lia|exact e_lens|lia|unfold enough in HN; lia|exact e_lens']).
  destruct (C78_damaged_image id0 D D' 4096 e_is e_is' [] e_tree E0 false (abs1 s_d) (w0 F_d) [s_d] cfuel (e_shows D) e_parents e_names HB ltac:(lia) id0_len id0_nonzero HD HI e_newest e_orderly e_chunks
    ltac:(intros n k; reflexivity) Hc vol_dest e_empty e_short (e_paths D)) as (b & ix & R1 & R2 & _ & R3).
  exists b, ix. split; [exact R1|]. split; [exact R2|]. intros rfuel Hr. destruct (R3 rfuel Hr) as (f0 & H).
  destruct (H f0 (le_n f0)) as (w' & v & H1 & H2 & H3 & _). exists f0, w', v. split; [exact H1|]. split; [exact (H2 [s_f] (reach_f _ _))|]. split; [exact (H2 [s_a] (reach_a _ _))|].
  destruct e_some as (e & He). destruct (H3 e He (e_orphan e He)) as (sub & ks & HS & H4). specialize (H4 [s_x]). change (table e_is' []) with qe' in He, H4. rewrite (e_made e He) in H4. change (table e_is []) with qe in HS, H4. rewrite (subs_in e He _ _ _ HS) in H4. apply H4. rewrite (e_subs' e He). exact (reach_x _ _).
Qed.
Print Assumptions C77_ex.
Print Assumptions C78_ex.

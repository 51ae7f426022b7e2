(** C69: a concrete image: five leaves (root tree, chunk tree, main tree, a nested subvolume,
    an orphaned subvolume) and a data block, then zeros.  The blocks are not in tree order. *)
From Verif Require Import Go GoProofs Layout LayoutProofs SpecLayout LeafProofs StructProofs PropsLayout KeyFmt KeyProofs Bolt Store StoreProofs SpecStore RangeProofs PropsStore PropsRange Session PropsSession IoUtil Recon PropsRecon PropsReconEx.
From Verif Require Import PropsPath ToString Fs Recover SpecFs SpecContent SpecTree SpecDisk DiskProofs PropsDest PropsDisk.
From Verif Require Import PropsRecoverEx PropsTreeEx.
From Coq Require Import ZifyBool ZifyNat ZifyN.
Ltac Zify.zify_post_hook ::= Z.div_mod_to_equations.

Definition dh (o n : Z) : d_header := {| h_csum := repeat x00 32; h_fsid := repeat x0a 16; h_bytenr := 65536; h_flags := 1;
  h_chunk_tree_uuid := repeat x0b 16; h_generation := 7; h_owner := o; h_nritems := n; h_level := 0 |}.
Definition de (id t off : Z) (d : list byte) : leaf_entry := {| le_key := {| k_objectid := id; k_type := t; k_offset := off |}; le_data := d |}.
Definition d_dir (dir off id t ft : Z) (n : list byte) : leaf_entry := de dir 84 off (ser (dir_item_fields (mkdi id t ft n))).
Definition d_ino (ino size : Z) : leaf_entry := de ino 1 0 (ser (inode_fields (mkino size))).
Definition d_inl (ino off : Z) (d : list byte) : leaf_entry := de ino 108 off (ser (fe_inline_fields {| fi_head := mkhead (zlen d) 0; fi_data := d |})).
Definition d_reg (ino off nr eo n : Z) : leaf_entry :=
  de ino 108 off (ser (fe_reg_fields {| fr_head := mkhead n 1; fr_disk_bytenr := nr; fr_disk_num_bytes := n; fr_offset := eo; fr_num_bytes := n |})).
Definition d_ch : d_chunk := {| ch_length := 4096; ch_owner := 2; ch_stripe_len := 65536; ch_type := 1; ch_io_align := 4096;
  ch_io_width := 4096; ch_sector_size := 4096; ch_sub_stripes := 1; ch_stripes := [{| st_devid := 1; st_offset := 90112; st_dev_uuid := repeat x05 16 |}] |}.
Definition de5 : list leaf_entry :=
  [d_ino 256 0; d_dir 256 100 257 1 2 s_a; d_dir 256 200 258 1 1 s_f; d_dir 256 300 259 1 7 s_l; d_dir 256 400 256 132 2 s_s; d_dir 256 500 270 1 3 s_y;
   d_ino 257 0; d_dir 257 100 260 1 1 s_g; d_ino 258 12; d_reg 258 0 1048576 1 4; d_reg 258 4 0 0 3; d_inl 258 7 (bz_s [49; 50; 51]);
   d_ino 259 3; d_inl 259 0 (bz_s [97; 47; 103]); d_ino 260 2; d_inl 260 0 (bz_s [120; 121])].
Definition de1 : list leaf_entry := [de 256 132 0 (repeat x00 439); de 257 132 0 (repeat x00 439)].
Definition de3 : list leaf_entry := [de 256 228 1048576 (ser (chunk_fields d_ch))].
Definition de256 : list leaf_entry := [d_dir 256 100 261 1 1 s_x; d_ino 261 3; d_inl 261 0 b_abc].
Definition de257 : list leaf_entry := [d_dir 256 100 259 1 1 s_y; d_ino 259 0].
Definition d_gap (es : list leaf_entry) : list byte := repeat x00 (4096 - 101 - 25 * length es - length (concat (map le_data es))).
Definition d_leaf (o : Z) (es : list leaf_entry) : list byte := leaf_block (dh o (zlen es)) 4096 es (d_gap es).
Definition d_data : list byte := bz_s [90; 65; 66; 67; 68] ++ repeat x45 4091.
Definition d_blocks : list (list byte) := [d_leaf 5 de5; d_leaf 3 de3; d_leaf 257 de257; d_leaf 1 de1; d_leaf 256 de256; d_data].
Definition d_items (o : Z) (es : list leaf_entry) : list insertion := leaf_items (dh o (zlen es)) (4096 - 101) es.
Definition d_iss : list (list insertion) := [d_items 5 de5; d_items 3 de3; d_items 257 de257; d_items 1 de1; d_items 256 de256; []].
Definition d_is : list insertion := concat d_iss.
Definition d_cs : list (Z * d_chunk) := [(1048576, d_ch)].
Lemma d_lens : Forall (fun bl => zlen bl = 4096) d_blocks. Proof. repeat constructor; vm_compute; reflexivity. Qed.
Lemma d_ok : Forall2 (contributes id0 4096) d_blocks d_iss.
Proof.
  assert (H : forall o es, leaf_ok (dh o (zlen es)) 4096 es (d_gap es) -> es <> [] -> o < 2^64 - 1 -> contributes id0 4096 (d_leaf o es) (d_items o es)) by (intros; apply c_leaf; auto; reflexivity).
  repeat (apply Forall2_cons; [first [apply H; [unfold leaf_ok; repeat split; try (apply fits_b); vm_compute; reflexivity|discriminate|reflexivity]|apply c_foreign; left; vm_compute; discriminate]|]). apply Forall2_nil.
Qed.
#[local] Opaque id0.
Lemma blocks_image id bls iss N : enough N -> Forall (fun bl => zlen bl = 4096) bls -> zlen bls < 2^32 -> Forall2 (contributes id 4096) bls iss ->
  big_enough (image_of 4096 bls N) 4096 /\ image_items id (image_of 4096 bls N) 4096 (concat iss).
Proof.
  intros HN HL Hn HC. split; [apply image_of_big; assumption|].
  pose proof (image_of_blocks 4096 N bls ltac:(lia) ltac:(unfold enough in *; lia) HL) as HB. assert (HP : 0 <= N / 4096) by (apply Z.div_pos; unfold enough in *; lia).
  exists (iss ++ repeat [] (Z.to_nat (N / 4096))). assert (EL : length bls = length iss) by (clear -HC; induction HC; cbn [length]; congruence). split; [|split].
  - rewrite concat_app, concat_nils, app_nil_r. reflexivity.
  - rewrite HB, zlen_app, zlen_repeat, Z2Nat.id by exact HP. unfold zlen. rewrite EL. reflexivity.
  - intros k i Hk. destruct (Nat.lt_ge_cases k (length iss)) as [Hl|Hl].
    + rewrite nth_error_app1 in Hk by exact Hl. destruct (nth_error bls k) as [bl|] eqn:EB; [|apply nth_error_None in EB; lia].
      rewrite (image_of_block 4096 N bls ltac:(lia) HL k bl EB). clear -HC Hk EB. revert k Hk EB. induction HC as [|x y l m Hxy HC IH]; intros [|k] Hk EB; cbn [nth_error] in *; try discriminate; [congruence|exact (IH k Hk EB)].
    + rewrite nth_error_app2 in Hk by exact Hl. apply nth_error_In in Hk. apply repeat_spec in Hk. subst i. apply c_foreign, zeros_foreign, image_of_rest; [lia|exact HL|lia].
Qed.
(** checking [orderly] by computation *)
Definition sepb (is : list insertion) (o : Z) (last : Key) : bool :=
  existsb (fun i => (i_owner i =? o) && key_ltb last (i_key i)) is ||
  forallb (fun j => negb (o <? i_owner j) || existsb (fun e => (o <? i_owner e) && ((i_owner e <? i_owner j) || ((i_owner e =? i_owner j) && key_ltb (i_key e) (i_key j)))) is ||
                    forallb (fun i => negb ((i_owner i =? o) && same_keyb (i_key i) (i_key j))) is) is.
Lemma sepb_ok is o last : sepb is o last = true -> separate is o last.
Proof.
  unfold sepb, separate. intros H. apply orb_prop in H as [H|H]; [left|right].
  - apply existsb_exists in H as (i & Hi & H). apply andb_prop in H as [H1 H2]. apply key_ltb_lt in H2. exists i. split; [exact Hi|]. split; [lia|exact H2].
  - intros j Hj Ho Hmin i Hi Eo Ek. rewrite forallb_forall in H. specialize (H j Hj). apply orb_prop in H as [H|H]; [apply orb_prop in H as [H|H]; [lia|]|].
    + apply existsb_exists in H as (e & He & H). apply andb_prop in H as [H1 H2]. specialize (Hmin e He ltac:(lia)). apply orb_prop in H2 as [H2|H2]; [lia|]. apply andb_prop in H2 as [H2 H3]. apply key_ltb_lt in H3.
      destruct Hmin as [Hm|[_ [Hm|Hm]]]; [lia|rewrite Hm in H3; exact (klt_irrefl _ H3)|exact (klt_irrefl _ (klt_trans _ _ _ H3 Hm))].
    + rewrite forallb_forall in H. specialize (H i Hi). rewrite (proj2 (same_keyb_eq _ _) Ek) in H. lia.
Qed.
Lemma d_gen i : In i d_is -> i_gen i = 7.
Proof. assert (HF : forallb (fun i => i_gen i =? 7) d_is = true) by (vm_cast_no_check (eq_refl true)). rewrite forallb_forall in HF. intros Hi. apply Z.eqb_eq, HF, Hi. Qed.
Lemma d_loc i loc : In i d_is -> KType (i_key i) = 84 -> DirItem_Location (sl (i_data i)) = Ok loc -> ObjectID loc < 2^64 - 1.
Proof.
  assert (HF : forallb (fun i => match DirItem_Location (sl (i_data i)) with Ok loc => ObjectID loc <? 2^64 - 1 | _ => true end || negb (KType (i_key i) =? 84)) d_is = true) by (vm_cast_no_check (eq_refl true)).
  rewrite forallb_forall in HF. intros Hi Ht Hl. specialize (HF i Hi). cbn beta in HF. rewrite Hl, Ht in HF. clear -HF. lia.
Qed.
Lemma d_type i : In i d_is -> KType (i_key i) < 255.
Proof. assert (HF : forallb (fun i => KType (i_key i) <? 255) d_is = true) by (vm_cast_no_check (eq_refl true)). rewrite forallb_forall in HF. intros Hi. apply Z.ltb_lt, HF, Hi. Qed.
Lemma d_sep i : In i d_is -> (KType (i_key i) = 84 \/ KType (i_key i) = 108 \/ KType (i_key i) = 228) -> separate d_is (i_owner i) (mkKey (ObjectID (i_key i)) (KType (i_key i)) (2^64 - 1)).
Proof.
  assert (HF : forallb (fun i => negb ((KType (i_key i) =? 84) || (KType (i_key i) =? 108) || (KType (i_key i) =? 228)) || sepb d_is (i_owner i) (mkKey (ObjectID (i_key i)) (KType (i_key i)) (2^64 - 1))) d_is = true) by (vm_cast_no_check (eq_refl true)).
  intros Hi Ht. apply sepb_ok. rewrite forallb_forall in HF. specialize (HF i Hi). cbn beta in HF. apply orb_prop in HF as [HF|HF]; [|exact HF]. exfalso. apply negb_true_iff, orb_false_iff in HF as [HF H3]. apply orb_false_iff in HF as [H1 H2]. clear -Ht H1 H2 H3. lia.
Qed.
Lemma d_sub : separate d_is 1 (mkKey (2^64 - 256) 132 (2^64 - 1)).
Proof. apply sepb_ok. vm_cast_no_check (eq_refl true). Qed.
Lemma d_sub256 : exists i, In i (subvols d_is) /\ ObjectID (i_key i) = 256.
Proof.
  assert (HF : existsb (fun i => ObjectID (i_key i) =? 256) (subvols d_is) = true) by (vm_cast_no_check (eq_refl true)). apply existsb_exists in HF as (i & Hi & H). exists i. split; [exact Hi|]. apply Z.eqb_eq. exact H.
Qed.
#[local] Opaque d_is.
Lemma d_orderly : orderly d_is.
Proof.
  split; [exact d_loc|]. split; [intros i Hi; split; [rewrite (d_gen i Hi); lia|exact (d_type i Hi)]|]. split.
  - intros o t id Ht Hne. split.
    + intros i j Hi Hj. apply filter_In in Hi as [Hi _], Hj as [Hj _]. rewrite !d_gen; [reflexivity|apply (tree_in d_is j o Hj)|apply (tree_in d_is i o Hi)].
    + destruct (group d_is o t id) as [|i l] eqn:E; [congruence|]. assert (Hi : In i (group d_is o t id)) by (rewrite E; left; reflexivity). clear E l Hne.
      apply filter_In in Hi as [Hi Hk]. cbn beta in Hk. apply andb_prop in Hk as [Hk1 Hk2]. apply Z.eqb_eq in Hk1, Hk2. destruct (tree_in d_is i o Hi) as [Hi' Ho].
      pose proof (d_sep i Hi') as H. rewrite Ho, Hk1, Hk2 in H. exact (H Ht).
  - intros _. split; [|split; [exact d_sub|exact d_sub256]].
    intros i j Hi Hj. apply filter_In in Hi as [Hi _], Hj as [Hj _]. rewrite !d_gen; [reflexivity|apply (tree_in d_is j 1 Hj)|apply (tree_in d_is i 1 Hi)].
Qed.
#[local] Transparent d_is.
Lemma d_chunks : chunks_are d_is d_cs.
Proof.
  split; [|split; [intros y []|exact Logic.I]]. set (g := group d_is 3 228 256). vm_compute in g. subst g. apply Forall2_cons; [|apply Forall2_nil].
  split; [reflexivity|]. split; [|split; [vm_compute; reflexivity|vm_compute; split; discriminate]].
  apply carries_whole; [apply fits_b; vm_compute; reflexivity|vm_compute; reflexivity|vm_compute; reflexivity].
Qed.
Definition qd : queries := table d_is d_cs.
Section Vol.
  Variable D : list byte.
  Hypothesis HB : forall j, 0 <= j < 4096 -> byte_at D (90112 + j) = byte_at d_data j.
  Hypothesis HZ : 94208 <= zlen D.
  Lemma dsh_g : file_shows qd D 5 260 (bz_s [120; 121]).
  Proof.
    exists [Inline 0 (bz_s [120; 121])]. eexists. split; [st (st_items (q_extents qd 5 260)); apply Forall2_cons; [left; eexists; split; [vm_compute; reflexivity|split; vm_compute; reflexivity]|apply Forall2_nil]|].
    split; [repeat constructor; vm_compute; reflexivity|]. split; [vm_compute; reflexivity|]. split; [vm_compute; reflexivity|]. split; [vm_compute; reflexivity|]. split; [vm_compute; reflexivity|]. intros j Hj. bytes j Hj 2.
  Qed.
  Lemma dsh_x : file_shows qd D 256 261 b_abc.
  Proof.
    exists [Inline 0 b_abc]. eexists. split; [st (st_items (q_extents qd 256 261)); apply Forall2_cons; [left; eexists; split; [vm_compute; reflexivity|split; vm_compute; reflexivity]|apply Forall2_nil]|].
    split; [repeat constructor; vm_compute; reflexivity|]. split; [vm_compute; reflexivity|]. split; [vm_compute; reflexivity|]. split; [vm_compute; reflexivity|]. split; [vm_compute; reflexivity|]. intros j Hj. bytes j Hj 3.
  Qed.
  Lemma dsh_y : file_shows qd D 257 259 [].
  Proof.
    exists []. eexists. split; [st (st_items (q_extents qd 257 259)); apply Forall2_nil|].
    split; [constructor|]. split; [vm_compute; reflexivity|]. split; [vm_compute; reflexivity|]. split; [vm_compute; reflexivity|]. split; [vm_compute; reflexivity|]. intros j Hj. change (zlen []) with 0 in Hj. lia.
  Qed.
  Lemma dsh_f : file_shows qd D 5 258 (bz_s [65; 66; 67; 68; 0; 0; 0; 49; 50; 51; 0; 0]).
  Proof.
    exists [Disk 0 4 90113; Hole 4 3; Inline 7 (bz_s [49; 50; 51])]. eexists. split.
    - set (l := st_items (q_extents qd 5 258)). assert (HE : exists k1 e1 k2 e2 k3 e3, l = [(k1, e1); (k2, e2); (k3, e3)] /\
        is_extent qd (k1, e1) (Disk 0 4 90113) /\ is_extent qd (k2, e2) (Hole 4 3) /\ is_extent qd (k3, e3) (Inline 7 (bz_s [49; 50; 51]))).
      { vm_compute in l. subst l. do 6 eexists. split; [reflexivity|]. split; [|split].
        - right; right. exists 1, 4, 1048576, 1, 90112, 1. repeat split; try (vm_compute; reflexivity); discriminate.
        - right; left. exists 1, 3. repeat split; try (vm_compute; reflexivity). discriminate.
        - left. eexists. repeat split; vm_compute; reflexivity. }
      destruct HE as (k1 & e1 & k2 & e2 & k3 & e3 & -> & A & B & C). apply Forall2_cons; [exact A|apply Forall2_cons; [exact B|apply Forall2_cons; [exact C|apply Forall2_nil]]].
    - split; [constructor; [split; [vm_compute; reflexivity|cbn; lia]|repeat constructor; vm_compute; (reflexivity || discriminate)]|]. split; [vm_compute; reflexivity|]. split; [vm_compute; reflexivity|]. split; [vm_compute; reflexivity|]. split; [vm_compute; reflexivity|].
      intros j Hj. unfold file_byte. cbn [rev app List.find].
      assert (EI : covers (Inline 7 (bz_s [49; 50; 51])) j = (7 <=? j) && (j <? 10)) by reflexivity. assert (EH : covers (Hole 4 3) j = (4 <=? j) && (j <? 7)) by reflexivity. assert (ED : covers (Disk 0 4 90113) j = (0 <=? j) && (j <? 4)) by reflexivity.
      rewrite EI, EH, ED. destruct (j <? 4) eqn:E4.
      + replace ((7 <=? j) && (j <? 10)) with false by lia. replace ((4 <=? j) && (j <? 7)) with false by lia. replace ((0 <=? j) && true) with true by lia. cbn [ext_byte].
        replace (90113 + (j - 0)) with (90112 + (j + 1)) by lia. rewrite HB by lia. assert (Hj' : 0 <= j < 4) by lia. clear Hj. rename Hj' into Hj.
        assert (H : j = 0 \/ j = 1 \/ j = 2 \/ j = 3) by lia. destruct H as [->|[->|[->| ->]]]; vm_compute; reflexivity.
      + assert (H : j = 4 \/ j = 5 \/ j = 6 \/ j = 7 \/ j = 8 \/ j = 9 \/ j = 10 \/ j = 11) by (change (zlen _) with 12 in Hj; lia).
        destruct H as [->|[->|[->|[->|[->|[->|[->| ->]]]]]]]; vm_compute; reflexivity.
  Qed.
  Lemma dsh_l : link_shows qd D 5 259 (bz_s [97; 47; 103]).
  Proof. eexists. split; [vm_compute; reflexivity|]. split; [left; split; vm_compute; reflexivity|vm_compute; reflexivity]. Qed.
  Lemma d_shows : volume_shows qd D vol_tree.
  Proof.
    exists (firstn 4 vol_tree), [(5, 256); (5, 257); (256, 256)], (skipn 4 vol_tree). split; [|split; [|split; [|split; [|split]]]].
    - apply (shows_dir qd (shown qd D) 5 256 (firstn 4 vol_tree) [(5, 257); (256, 256)]); [vm_compute; reflexivity|]. st (st_items (q_dirItems qd 5 256)).
      apply (shows_sub qd (shown qd D) 5 _ _ _ s_a 5 257 [(s_g, TFile (bz_s [120; 121]))] _ [(5, 257)] [(256, 256)]).
      + vm_compute; reflexivity.
      + nd. right. split; [vm_compute; discriminate|split; vm_compute; reflexivity].
      + apply (shows_dir qd (shown qd D) 5 257 _ []); [vm_compute; reflexivity|]. st (st_items (q_dirItems qd 5 257)). eapply shows_file; [sys|vm_compute; discriminate|exact dsh_g|nm|intros []|apply shows_nil].
      + nm.
      + vm_compute. intuition discriminate.
      + eapply shows_file; [sys|vm_compute; discriminate|exact dsh_f|nm|vm_compute; intuition discriminate|].
        eapply shows_link; [sys|vm_compute; discriminate|exact dsh_l|nm|vm_compute; intuition discriminate|].
        apply (shows_sub qd (shown qd D) 5 _ _ _ s_s 256 256 [(s_x, TFile b_abc)] _ [(256, 256)] []).
        * vm_compute; reflexivity.
        * nd. left. split; vm_compute; reflexivity.
        * apply (shows_dir qd (shown qd D) 256 256 _ []); [vm_compute; reflexivity|]. st (st_items (q_dirItems qd 256 256)). eapply shows_file; [sys|vm_compute; discriminate|exact dsh_x|nm|intros []|apply shows_nil].
        * nm.
        * intros [].
        * eapply shows_other; [sys|vm_compute; discriminate..|apply shows_nil].
    - repeat constructor; vm_compute; intuition discriminate.
    - st (st_items (q_subvolumes qd)). apply subs_seen; [vm_compute; auto|]. change (skipn 4 vol_tree) with [(subvol_prefix ++ dec 257, TDir [(s_y, TFile [])])].
      apply (subs_new qd (shown qd D) _ _ [] _ 257 _ _ [(257, 256)]); [vm_compute; reflexivity|reflexivity|vm_compute; intuition discriminate| |vm_compute; intuition (subst; discriminate)|repeat constructor; intros []|intros []|apply subs_nil].
      apply (shows_dir qd (shown qd D) 257 256 _ []); [vm_compute; reflexivity|]. st (st_items (q_dirItems qd 257 256)). eapply shows_file; [sys|vm_compute; discriminate|exact dsh_y|nm|intros []|apply shows_nil].
    - vm_compute; reflexivity.
    - reflexivity.
    - intros n Hn. change (map fst (skipn 4 vol_tree)) with [subvol_prefix ++ dec 257]. change (map fst (firstn 4 vol_tree)) with [s_a; s_f; s_l; s_s] in Hn. intros [<-|[]]. vm_compute in Hn. intuition discriminate.
  Qed.
End Vol.
Lemma image_byte N bls k bl j : Forall (fun bl => zlen bl = 4096) bls -> nth_error bls k = Some bl -> 0 <= j < 4096 ->
  byte_at (image_of 4096 bls N) (65536 + 4096 * (Z.of_nat k + 1) + j) = byte_at bl j.
Proof.
  intros HL Hk Hj. rewrite <- (image_of_block 4096 N bls ltac:(lia) HL k bl Hk). unfold image_block, sub, byte_at.
  set (D := image_of 4096 bls N). clearbody D. rewrite nth_firstn' by (clear -Hj; lia). rewrite nth_skipn'. f_equal. clear -Hj. lia.
Qed.
(** a file /o, nothing else *)
Definition F_o : fs := [([s_o], NFile [x00])].
Lemma o_look r : look F_o ([s_d] ++ r) = None.
Proof. destruct (look F_o ([s_d] ++ r)) as [nd|] eqn:E; [|reflexivity]. assert (H1 : In ([s_d] ++ r) (map fst F_o)) by (apply look_In; [discriminate|congruence]). destruct H1 as [H1|[]]. discriminate. Qed.
Lemma o_dest : new_dest E0 F_o (abs1 s_d) [s_d].
Proof.
  split; [|split; [vm_compute; reflexivity|split; [vm_compute; intuition discriminate|split; [vm_compute; reflexivity|split; [reflexivity|split; [|vm_compute; repeat constructor; discriminate]]]]]].
  - intros p c H. apply look_In in H; [|destruct p; discriminate]. destruct p as [|x p]; [reflexivity|]. destruct H as [H|[]]; destruct p; discriminate.
  - intros a b Hab. destruct a as [|x a]; [left; reflexivity|right]. injection Hab as <- Hab. exact (o_look a).
Qed.
Lemma o_empty : part_of_tree F_o [s_d] (TDir vol_tree) /\ replaceable false F_o [s_d] (TDir vol_tree).
Proof. split; [|right]; intros r nd H; rewrite o_look in H; discriminate. Qed.
#[local] Opaque d_blocks d_is d_cs d_iss vol_tree qd.
(** recon on the image, then recover into /d, which does not exist yet: the whole tree, and nothing else *)
Example C69_ex : forall N cfuel, enough N -> 2^64 < Z.of_nat cfuel ->
  let D := image_of 4096 d_blocks N in
  exists b ix, doScanFS true true PropsRecon.no_faults (file_dev D) 4096 id0 None = (Some b, XOk) /\ OpenReadOnly (Some b) = Ok (Some b, Some ix) /\
    forall rfuel, (length b + 1 < rfuel)%nat -> exists fuel w' v evs,
      doRecoverFiles fuel cfuel E0 (file_reader D) (ix_queries rfuel b (ix_Generation ix)) false (abs1 s_d) (w0 F_o) = (w', Ret (true, v)) /\
      holds_tree (w_fs w') [s_d] (TDir vol_tree) /\ look (w_fs w') [s_o] = Some (NFile [x00]) /\
      w_log w' = evs ++ [] /\ (forall k s, ~ In (EvWarn k s) evs).
Proof.
  intros N cfuel HN Hcf D. destruct (blocks_image id0 d_blocks d_iss N HN d_lens ltac:(vm_compute; reflexivity) d_ok) as [HB HI]. fold D in HB, HI. change (concat d_iss) with d_is in HI.
  assert (HS : volume_shows (table d_is d_cs) D vol_tree).
  { apply d_shows.
    - intros j Hj. exact (image_byte N d_blocks 5 d_data j d_lens eq_refl Hj).
    - pose proof (image_of_len 4096 N d_blocks ltac:(lia) ltac:(unfold enough in HN; lia) d_lens) as E. fold D in E. assert (EZ : zlen d_blocks = 6) by (vm_compute; reflexivity). rewrite EZ in E. unfold enough in HN. clear -E HN. lia. }
  destruct (C69_recon_then_recover id0 D 4096 d_is d_cs vol_tree E0 false (abs1 s_d) (w0 F_o) [s_d] cfuel HB ltac:(lia) id0_len id0_nonzero HI d_orderly d_chunks HS ltac:(intros n k; reflexivity) Hcf o_dest vol_short (proj1 o_empty) (proj2 o_empty)) as (b & ix & H1 & H2 & _ & H3).
  exists b, ix. split; [exact H1|]. split; [exact H2|]. intros rfuel Hr. destruct (H3 rfuel Hr) as (f0 & H). destruct (H f0 (le_n f0)) as (w' & v & evs & H'). exists f0, w', v, evs. destruct H' as (A1 & A2 & _ & A3 & A4 & A5). split; [exact A1|]. split; [exact A2|]. split; [|auto].
  rewrite A3; [reflexivity|intros [r Hr']; discriminate|intros [r Hr']; discriminate].
Qed.
Print Assumptions C69_ex.

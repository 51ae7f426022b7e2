(** C93: every tree of files that is written to an image comes back: the writer is that of SpecMkfs. *)
From Verif Require Import Go GoProofs Layout LayoutProofs SpecLayout LeafProofs StructProofs PropsLayout KeyFmt KeyProofs Bolt Store StoreProofs SpecStore Session PropsSession IoUtil Crc PropsCrc Recon ReconCmd PropsRecon PropsReconEx RangeItems.
From Verif Require Import ToString PropsPath Path Fs Recover SpecFs SpecContent SpecTree TreeRun SpecDisk PropsDest SpecMount Rescue PropsRescueRead PropsRescueNode PropsMount PropsRecoverEx Ls PropsLs PropsLsEx PropsLsDisk Uuid PropsUuid Cli SpecCli PropsCli SpecVolume VolumeProofs VolumeLs PropsVolume SpecMkfs MkfsProofs MkfsImage.
From Coq Require Import List Lia ZifyBool ZifyNat ZifyN Sorting.Sorted Permutation.
From Verif Require Import Go.
Ltac Zify.zify_post_hook ::= Z.div_mod_to_equations.
#[local] Opaque BS.

(** inodes that can be stored *)
Definition good_base (base : Z -> d_inode) : Prop := forall i, fits (inode_fields (base i)) /\ inode_times_ok (base i).
Lemma chunk_fit : item_fit chunk_item.
Proof. unfold item_fit, chunk_item. cbn [fst snd ObjectID KType KOffset]. rewrite ser_sum; [|repeat constructor]. unfold chunk_fields, chunk_head_fields, whole_chunk. cbn [ch_stripes flat_map stripe_fields app sumw fw]. lia. Qed.
Lemma whole_sound : sound_chunk 0 whole_chunk.
Proof.
  split; [unfold is_u64; lia|]. split; [apply fits_b; vm_compute; reflexivity|]. split; [rewrite ser_sum; [|repeat constructor]; unfold chunk_fields, chunk_head_fields, whole_chunk; cbn [ch_stripes flat_map stripe_fields app sumw fw]; lia|].
  cbn [whole_chunk ch_stripes st_offset ch_length]. lia.
Qed.
Lemma size_fits d n : fits (inode_fields d) -> 0 <= n < 2^64 -> fits (inode_fields (set_size d n)).
Proof.
  intros H Hn. unfold inode_fields in *. cbn [app] in *. unfold set_size. cbn [in_generation in_transid in_size in_nbytes in_block_group in_nlink in_uid in_gid in_mode in_rdev in_flags in_sequence in_res0 in_res1 in_res2 in_res3 in_atime in_ctime in_mtime in_otime].
  inversion H as [|? ? H1 H']; subst. inversion H' as [|? ? H2 H'']; subst. inversion H'' as [|? ? _ H3]; subst. constructor; [exact H1|]. constructor; [exact H2|]. constructor; [|exact H3]. cbn [fit1]. change (256 ^ Z.of_nat 8) with (2^64). exact Hn.
Qed.

Lemma top_type v ks : tree_of v = sort_tree (TDir ks) -> v_type v = 2.
Proof. rewrite sort_dir. destruct v; cbn [tree_of]; [discriminate|discriminate|reflexivity]. Qed.

Section Image.
  Variables (id : list byte) (gen : Z) (base : Z -> d_inode) (kids : list (list byte * tree)) (N : Z).
  Let t := TDir kids.
  Hypothesis Hid : length id = 16%nat.
  Hypothesis Hgen : 0 <= gen < 2^64 - 1.
  Hypothesis Hbase : good_base base.
  Hypothesis Ht : writable t.
  Hypothesis Hdata : Forall (foreign id) (data_of t).
  Hypothesis HN : 0 <= N.
  Let D := mkfs id gen base t N.
  Hypothesis HD : zlen D < 2^62.
  Let V := volume t.
  Let attrs := attrs_of base V.
  Lemma m_placed : exists j, well_placed (sort_tree t) 256 [] V j (data_of t).
  Proof. pose proof (place_ok (sort_tree t) (sort_ready t Ht) 256 []) as H. unfold V, volume, data_of. destruct (place (sort_tree t) 256 []) as [[v j] bl]. exists j. exact H. Qed.
  Lemma m_tree : tree_of V = sort_tree t. Proof. destruct m_placed as (j & H & _). exact H. Qed.
  Lemma m_nodes w : In w (nodes V) -> placed (data_of t) w.
  Proof. destruct m_placed as (j & _ & _ & _ & _ & H). rewrite Forall_forall in H. apply H. Qed.
  Lemma m_nodup : NoDup (map v_ino (nodes V)). Proof. destruct m_placed as (j & _ & (m & H & _) & _). rewrite H. apply numbers_nodup. Qed.
  Lemma m_data : Forall (fun b => zlen b = BS) (data_of t).
  Proof. destruct m_placed as (j & _ & _ & _ & (new & E & H) & _). cbn [app] in E. rewrite E. exact H. Qed.
  Lemma own_count l : (length l <= length (flat_map (own attrs) l))%nat.
  Proof. induction l as [|w l IH]; [apply le_n|]. cbn [flat_map length]. rewrite app_length. unfold own at 1. cbn [length]. lia. Qed.
  Lemma leaf_len o x : zlen (snd x) <= BS - 126 -> zlen (leaf_of id gen o x) = BS.
  Proof.
    intros Hx. pose proof bs_pos as HB. pose proof (zlen_nonneg (snd x)). unfold leaf_of, leaf_block. rewrite !zlen_app. rewrite (ser_sum (header_fields _)), (ser_sum (leaf_heads _ _)).
    - cbn [leaf_heads item_fields key_fields app sumw fw header_fields]. cbn [map rev app concat one_item le_data]. rewrite app_nil_r, zlen_repeat. lia.
    - cbn [leaf_heads item_fields key_fields app]. repeat constructor.
    - unfold header_fields, header. cbn [h_csum h_fsid h_bytenr h_flags h_chunk_tree_uuid h_generation h_owner h_nritems h_level]. repeat constructor; exact Hid.
  Qed.
  Lemma leaf_min o x : BS <= zlen (leaf_of id gen o x) \/ zlen (snd x) > BS - 126.
  Proof. destruct (Z_gt_le_dec (zlen (snd x)) (BS - 126)); [right; assumption|left; rewrite leaf_len by assumption; lia]. Qed.
  Lemma leaf_long o x : 126 <= zlen (leaf_of id gen o x).
  Proof.
    unfold leaf_of, leaf_block. rewrite !zlen_app. rewrite (ser_sum (header_fields _)), (ser_sum (leaf_heads _ _)).
    - cbn [leaf_heads item_fields key_fields app sumw fw header_fields]. pose proof (zlen_nonneg (repeat x00 (Z.to_nat (BS - 101 - 25 - zlen (snd x))))) as H1. pose proof (zlen_nonneg (concat (rev (map le_data [one_item x])))) as H2. lia.
    - cbn [leaf_heads item_fields key_fields app]. repeat constructor.
    - unfold header_fields, header. cbn [h_csum h_fsid h_bytenr h_flags h_chunk_tree_uuid h_generation h_owner h_nritems h_level]. repeat constructor; exact Hid.
  Qed.
  (** numbers are small as the image is *)
  Lemma concat_min (l : list (list byte)) : Forall (fun b => 126 <= zlen b) l -> zlen l <= zlen (concat l).
  Proof. induction 1 as [|b l Hb _ IH]; [reflexivity|]. cbn [concat]. rewrite zlen_app, zlen_cons. lia. Qed.
  Lemma m_size : 65536 + BS + zlen (concat (volume_blocks id gen base t)) + N = zlen D.
  Proof. unfold D, mkfs. rewrite !zlen_app, !zlen_repeat. pose proof bs_pos. lia. Qed.
  Lemma m_numbers w : In w (nodes V) -> 256 <= v_ino w < 256 + 2^63.
  Proof.
    intros Hw. destruct m_placed as (j & _ & (m & H & _) & _). pose proof (in_map v_ino _ _ Hw) as Hi. rewrite H in Hi. apply numbers_in in Hi. assert (Hm : m = length (nodes V)) by (rewrite <- (map_length v_ino), H; unfold numbers; rewrite map_length, seq_length; reflexivity).
    pose proof m_size as HS. unfold volume_blocks in HS. rewrite concat_app, zlen_app in HS. cbn [concat] in HS. rewrite zlen_app in HS. fold V attrs in HS.
    assert (HM : zlen (map (leaf_of id gen 5) (items attrs V)) <= zlen (concat (map (leaf_of id gen 5) (items attrs V)))).
    { apply concat_min. apply Forall_map. apply Forall_forall. intros x _. apply leaf_long. }
    unfold zlen at 1 in HM. rewrite map_length in HM. pose proof (own_count (nodes V)) as HO. fold (items attrs V) in HO. pose proof (zlen_nonneg (concat (data_of t))). pose proof (zlen_nonneg (leaf_of id gen 3 chunk_item)). pose proof bs_pos. lia.
  Qed.
  Lemma m_fit : Forall item_fit (items attrs V).
  Proof.
    unfold items. apply Forall_forall. intros x Hx. apply in_flat_map in Hx as (w & Hw & Hx). pose proof (own_fit attrs _ w (m_nodes w Hw)) as H. pose proof (m_numbers w Hw). specialize (H ltac:(lia)). rewrite Forall_forall in H. exact (H x Hx).
  Qed.
  Lemma m_blocks : Forall (fun b => zlen b = BS) (volume_blocks id gen base t).
  Proof.
    pose proof bs_pos as HB. unfold volume_blocks. fold V attrs. apply Forall_app. split; [exact m_data|]. constructor; [apply leaf_len; destruct chunk_fit as (_ & _ & _ & H); lia|]. apply Forall_map. apply Forall_forall. intros x Hx. apply leaf_len. pose proof m_fit as HF. rewrite Forall_forall in HF. destruct (HF x Hx) as (_ & _ & _ & H). lia.
  Qed.
  Definition m_is : list insertion := ins gen 3 chunk_item :: map (ins gen 5) (items attrs V).
  Lemma m_items : image_items id D BS m_is.
  Proof.
    pose proof bs_pos as HB. replace m_is with (concat (map (fun _ => []) (data_of t) ++ [ins gen 3 chunk_item] :: map (fun x => [ins gen 5 x]) (items attrs V))).
    - apply (blocks_of id BS (volume_blocks id gen base t) _ N); [lia|exact HN|exact m_blocks|]. unfold volume_blocks. fold V attrs. apply Forall2_app.
      + assert (G : forall l, Forall (foreign id) l -> Forall2 (contributes id BS) l (map (fun _ => []) l)) by (intros l Hl; induction Hl as [|b l Hb _ IH]; cbn [map]; [constructor|constructor; [apply c_foreign; exact Hb|exact IH]]). exact (G _ Hdata).
      + constructor; [apply leaf_good; [exact Hid|exact Hgen|lia|exact chunk_fit]|]. pose proof m_fit as HF. induction HF as [|x l Hx _ IH]; cbn [map]; [constructor|]. constructor; [apply leaf_good; [exact Hid|exact Hgen|lia|exact Hx]|exact IH].
    - rewrite concat_app. cbn [concat app]. assert (E1 : forall l : list (list byte), concat (map (fun _ => @nil insertion) l) = []) by (induction l; [reflexivity|assumption]). rewrite E1. cbn [app]. unfold m_is. f_equal. generalize (items attrs V). induction l as [|x l IH]; [reflexivity|]. cbn [map concat app]. f_equal. exact IH.
  Qed.
  Lemma m_attrs w : In w (nodes V) -> attrs (v_ino w) = match w with VFile i b => set_size (base i) (zlen (content b)) | _ => base (v_ino w) end.
  Proof.
    intros Hw. unfold attrs, attrs_of. destruct (List.find (fun u => v_ino u =? v_ino w) (nodes V)) as [u|] eqn:E.
    - apply List.find_some in E as [Hu E]. cbv beta in E. assert (u = w) by (apply (nodup_map_inj v_ino (nodes V) m_nodup u w Hu Hw); lia). subst u. destruct w; reflexivity.
    - pose proof (List.find_none _ _ E w Hw) as X. cbv beta in X. lia.
  Qed.
  Lemma m_piece c pre post : data_of t = pre ++ data_blocks c ++ post -> 2048 < zlen c -> piece_ok D 0 whole_chunk (PData (address (zlen pre)) (pad c)).
  Proof.
    intros E Hc. pose proof bs_pos as HB. destruct (pad_len c) as [_ HP]. pose proof m_data as HM. rewrite E in HM. apply Forall_app in HM as [H1 H2]. pose proof (concat_zlen BS pre H1) as HL. pose proof (zlen_nonneg pre).
    assert (ED : exists rest, D = (repeat x00 (Z.to_nat (65536 + BS)) ++ concat pre) ++ pad c ++ rest).
    { eexists. unfold D, mkfs, volume_blocks. rewrite E, !concat_app, (proj2 (data_spec c)). rewrite <- !app_assoc. reflexivity. }
    destruct ED as (rest & ED). assert (HA : zlen (repeat x00 (Z.to_nat (65536 + BS)) ++ concat pre) = address (zlen pre)) by (rewrite zlen_app, zlen_repeat, HL; unfold address; lia).
    assert (HZ : address (zlen pre) + zlen (pad c) <= zlen D) by (rewrite ED, !zlen_app, <- HA, zlen_app; pose proof (zlen_nonneg rest); lia).
    cbn [piece_ok whole_chunk ch_length ch_stripes]. unfold address in *. split; [lia|]. split; [lia|]. split; [lia|]. split; [lia|]. eexists _, _. split; [reflexivity|]. cbn [st_offset]. cbv zeta. split; [lia|].
    rewrite ED. replace (Z.to_nat (0 + (65536 + BS * (zlen pre + 1) - 0))) with (length (repeat x00 (Z.to_nat (65536 + BS)) ++ concat pre)) by (unfold zlen in HA; unfold zlen; lia).
    rewrite skipn_app, skipn_all, Nat.sub_diag. cbn [skipn app]. rewrite firstn_app, firstn_all, Nat.sub_diag. cbn [firstn]. rewrite app_nil_r. reflexivity.
  Qed.
  Lemma m_sound : sound_volume attrs D 0 whole_chunk V.
  Proof.
    destruct m_placed as (j & HT & _ & HI & _ & _). split; [exact HI|]. split; [exact (top_type V _ HT)|]. split; [exact m_nodup|].
    apply Forall_forall. intros w Hw. pose proof (m_nodes w Hw) as HP. pose proof (m_numbers w Hw) as HR. pose proof (m_attrs w Hw) as HA. destruct (Hbase (v_ino w)) as [B1 B2].
    assert (HB : match w with VFile _ b => body_ok D 0 whole_chunk b /\ 0 <= zlen (content b) < 2^64 | _ => True end).
    { destruct w as [i [c|size ps]|i s|i ks]; cbn [placed] in HP; auto.
      - cbn [body_ok content]. pose proof (zlen_nonneg c). lia.
      - destruct HP as (c & pre & post & H1 & -> & -> & E). pose proof (m_piece c pre post E H1) as HPi. cbn [body_ok content map piece_bytes concat]. rewrite app_nil_r. destruct (pad_len c) as [_ HL]. pose proof (zlen_nonneg c). pose proof HPi as HPi'. cbn [piece_ok] in HPi'. destruct HPi' as (_ & _ & _ & _ & s & r & Es & HZ & _). cbv zeta in HZ. cbn [whole_chunk ch_stripes] in Es. assert (st_offset s = 0) as E0 by (assert (s = {| st_devid := 1; st_offset := 0; st_dev_uuid := repeat x00 16 |}) as -> by congruence; reflexivity). rewrite E0 in HZ. unfold address in HZ. pose proof (zlen_nonneg pre). pose proof bs_pos.
        split; [split; [lia|split; [lia|constructor; [exact HPi|constructor]]]|]. assert (HFi : zlen (firstn (Z.to_nat (zlen c)) (pad c)) = zlen c) by (unfold zlen in *; rewrite firstn_length; lia). rewrite HFi. lia. }
    split; [lia|]. rewrite HA. destruct w as [i b|i s|i ks]; cbn [v_ino placed] in *.
    - destruct HB as [HB1 HB2]. split; [apply size_fits; assumption|]. split; [exact B2|]. rewrite HA. split; [reflexivity|exact HB1].
    - auto.
    - auto.
  Qed.
  Lemma item5_type k d : In (k, d) (items attrs V) -> KType k <> 228.
  Proof. intros H. unfold items in H. apply in_flat_map in H as (w & _ & H). destruct (own_key attrs w k d H) as [_ [E|[E|E]]]; rewrite E; discriminate. Qed.
  Lemma m_in i : In i m_is <-> i = ins gen 3 chunk_item \/ exists x, In x (items attrs V) /\ i = ins gen 5 x.
  Proof. unfold m_is. cbn [In]. rewrite in_map_iff. split; intros [H|(x & H1 & H2)]; [left; congruence|right; exists x; auto|left; congruence|right; exists x; auto]. Qed.
  Lemma m_carries : carries_volume attrs 0 whole_chunk m_is V.
  Proof.
    split; [|split; [|split; [|split]]].
    - exists []. split; [constructor|]. intros o k d. split.
      + intros (i & Hi & Eo & Ek & Ed). apply m_in in Hi as [->|((k', d') & Hx & ->)]; cbn [ins i_owner i_key i_data fst snd] in *; [right; left; unfold chunk_item in *; cbn [fst snd] in *; auto|left; subst; auto].
      + intros [[-> H]|[(-> & -> & ->)|[]]]; [exists (ins gen 5 (k, d)); split; [apply m_in; right; eauto|auto]|exists (ins gen 3 chunk_item); split; [apply m_in; auto|auto]].
    - intros i j Hi Hj _ _ _. apply m_in in Hi as [->|(x & _ & ->)]; apply m_in in Hj as [->|(y & _ & ->)]; reflexivity.
    - intros i Hi. apply m_in in Hi as [->|(x & _ & ->)]; cbn [ins i_gen]; lia.
    - intros j Hj Ho _ i Hi Ei E. apply m_in in Hj as [->|((k, d) & Hx & ->)]; [cbn [ins i_owner] in Ho; lia|]. apply m_in in Hi as [->|(y & _ & ->)]; [|cbn [ins i_owner] in Ei; discriminate].
      cbn [ins i_key fst] in E. apply (item5_type k d Hx). rewrite <- E. reflexivity.
    - intros j Hj Ho. apply m_in in Hj as [->|(x & _ & ->)]; cbn [ins i_owner] in Ho; lia.
  Qed.
  Lemma m_volume : volume_image id D BS attrs V.
  Proof. exists 0, whole_chunk, m_is. split; [exact m_items|]. split; [exact m_sound|]. split; [exact whole_sound|exact m_carries]. Qed.
  Lemma m_no_empty : no_empty V.
  Proof. intros i size H. apply m_nodes in H. cbn [placed] in H. destruct H as (c & pre & post & _ & _ & E & _). discriminate. Qed.
  Lemma m_big : 64 * 1024 * 1024 + BS * 100 <= N -> big_enough D BS.
  Proof. intros H. pose proof bs_pos. pose proof m_size. pose proof (zlen_nonneg (concat (volume_blocks id gen base t))). split; [lia|]. split; lia. Qed.
End Image.

(** the order of the entries does not matter *)
Lemma sort_sub t : writable t -> forall r, tree_sub (sort_tree t) r = option_map sort_tree (tree_sub t r).
Proof.
  induction t as [c|s|kids IH] using tree_ind'; intros HW r; [destruct r; reflexivity|destruct r; reflexivity|]. destruct r as [|n r]; [reflexivity|]. rewrite sort_dir. cbn [tree_sub]. apply writable_dir in HW as (_ & HN & HK).
  rewrite (pick_perm (map sort_kid kids)); [|rewrite map_map; cbn [sort_kid fst]; exact (hashes_names _ HN)|apply sort_perm]. rewrite pick_sort_kid. destruct (pick kids n) as [u|] eqn:E; [|reflexivity]. cbn [option_map]. apply pick_In in E. exact (IH n u E (HK n u E) r).
Qed.
Lemma writable_sub t : forall r u, writable t -> tree_sub t r = Some u -> writable u.
Proof.
  induction t as [c|s|kids IH] using tree_ind'; intros [|n r] u HW H; cbn [tree_sub] in H; try discriminate; try (assert (E : u = TFile c \/ u = TLink s \/ u = TDir kids) by (right; right; congruence)); try (injection H as <-; exact HW).
  apply writable_dir in HW as (_ & _ & HK). destruct (pick kids n) as [w|] eqn:E; [|discriminate]. apply pick_In in E. exact (IH n w E r u (HK n w E) H).
Qed.
Lemma sort_tdir t : is_tdir (sort_tree t) = is_tdir t. Proof. destruct t; reflexivity. Qed.
Lemma sort_mode t : list_mode (sort_tree t) = list_mode t. Proof. destruct t; reflexivity. Qed.
Lemma sort_shows q dev t n : writable t -> shows_node q dev (sort_tree t) n -> shows_node q dev t n.
Proof.
  destruct t as [c|s|kids]; intros HW; [exact (fun H => H)|exact (fun H => H)|]. rewrite sort_dir. intros [H1 [H2 H3]]. split; [exact H1|]. apply writable_dir in HW as (_ & HN & _). split.
  - intros ord Hord. destruct (H2 ord Hord) as (n' & es & E & HP). exists n', es. split; [exact E|]. eapply perm_trans; [exact HP|]. eapply perm_trans; [apply Permutation_map, Permutation_sym, sort_perm|]. rewrite map_map. apply Permutation_refl'. apply map_ext. intros k. cbn [sort_kid fst snd]. unfold sort_kid. cbn [fst snd]. rewrite sort_mode. reflexivity.
  - intros name. specialize (H3 name). rewrite (pick_perm (map sort_kid kids)) in H3; [|rewrite map_map; cbn [sort_kid fst]; exact (hashes_names _ HN)|apply sort_perm]. rewrite pick_sort_kid in H3. destruct (pick kids name) as [u|]; cbn [option_map] in H3; [rewrite sort_tdir in H3; exact H3|exact H3].
Qed.

(** C93.  Every directory tree with storable names, links and inodes, whose file data holds no copy of a leaf of
    the file system itself, is restored from the image it is written to. *)
Theorem C93_written_recovered : forall o1 h g1 txt id a img gen base kids N dest P,
  no_trouble o1 -> h_dev h img = Some (file_dev (mkfs id gen base (TDir kids) N)) -> g_metadata g1 <> [] -> h_db h (g_metadata g1) = NoFile ->
  g_blockSize g1 = BS -> spells txt id -> length id = 16%nat -> id <> repeat x00 16 -> 0 <= gen < 2^64 - 1 -> good_base base ->
  writable (TDir kids) -> Forall (foreign id) (data_of (TDir kids)) -> 64 * 1024 * 1024 + BS * 100 <= N -> zlen (mkfs id gen base (TDir kids) N) < 2^62 ->
  exists h1 b, btrfscue o1 h g1 (CRecon (Some txt) a) [img] = mkResult h1 ONone Exit0 /\ gained h h1 (g_metadata g1) b /\
  forall o2 g2 clobber, g_metadata g2 = g_metadata g1 -> SpecContent.no_faults (o_env o2) -> 2^64 < Z.of_nat (o_cfuel o2) -> (length b + 1 < o_rfuel o2)%nat ->
    let F := w_fs (h_world h) in
    new_dest (o_env o2) F dest P -> paths_short dest kids -> part_of_tree F P (TDir kids) -> replaceable clobber F P (TDir kids) ->
    exists n, forall fuel, (n <= fuel)%nat -> exists h2 w evs, btrfscue (with_fuel o2 fuel) h1 g2 (CRecover clobber) [img; dest] = mkResult h2 ONone Exit0 /\ wrote h1 h2 w /\
      holds_tree (w_fs w) P (TDir kids) /\ (forall p, ~ at_or_below P p -> ~ at_or_below p P -> look (w_fs w) p = look F p) /\
      w_log w = evs ++ w_log (h_world h) /\ (forall k s, ~ In (EvWarn k s) evs).
Proof.
  intros o1 h g1 txt id a img gen base kids N dest P HO Hd Hm Hf Hb HS Hid HZ Hg Hba HW HF HN HD. pose proof bs_pos as HB. assert (HN0 : 0 <= N) by lia.
  pose proof (m_volume id gen base kids N Hid Hg Hba HW HF HN0 HD) as HV. pose proof (m_big id gen base kids N Hid HN0 HD HN) as HBig.
  destruct (C93_recover o1 h g1 txt id a img _ _ _ dest P HO Hd Hm Hf ltac:(rewrite Hb; exact HBig) ltac:(lia) HS Hid HZ ltac:(rewrite Hb; exact HV)) as (h1 & b & R1 & R2 & R3).
  exists h1, b. split; [exact R1|]. split; [exact R2|]. rewrite (m_tree kids HW) in R3. pose proof (sort_at _ HW) as HAt. intros o2 g2 clobber E1 E2 E3 E4 F E5 E6 E7 E8.
  destruct (R3 o2 g2 clobber E1 E2 E3 E4 E5) as (n & R4).
  - intros ks Ek r Hr. apply E6. rewrite <- Ek, HAt in Hr. exact Hr.
  - intros r nd Hr. rewrite HAt. exact (E7 r nd Hr).
  - destruct E8 as [E8|E8]; [left; exact E8|right]. intros r nd Hr. rewrite HAt. exact (E8 r nd Hr).
  - exists n. intros fuel Hn. destruct (R4 fuel Hn) as (h2 & w & evs & Q1 & Q2 & Q3 & Q4 & Q5 & Q6). exists h2, w, evs. split; [exact Q1|]. split; [exact Q2|]. split; [|auto]. intros r. rewrite <- HAt. exact (Q3 r).
Qed.
(** and it is what the mount serves *)
Theorem C93_written_mounted : forall o1 h g1 txt id a img gen base kids N,
  no_trouble o1 -> h_dev h img = Some (file_dev (mkfs id gen base (TDir kids) N)) -> g_metadata g1 <> [] -> h_db h (g_metadata g1) = NoFile ->
  g_blockSize g1 = BS -> spells txt id -> length id = 16%nat -> id <> repeat x00 16 -> 0 <= gen < 2^64 - 1 -> good_base base ->
  writable (TDir kids) -> Forall (foreign id) (data_of (TDir kids)) -> 64 * 1024 * 1024 + BS * 100 <= N -> zlen (mkfs id gen base (TDir kids) N) < 2^62 ->
  let D := mkfs id gen base (TDir kids) N in
  exists h1 b, btrfscue o1 h g1 (CRecon (Some txt) a) [img] = mkResult h1 ONone Exit0 /\ gained h h1 (g_metadata g1) b /\
  forall o2 g2 dir, g_metadata g2 = g_metadata g1 -> o_okmount o2 = true ->
    exists gen, btrfscue o2 h1 g2 CMount [img; dir] = mkResult h1 ONone (Serving b gen (Reader (file_reader D)) dir) /\
      forall rfuel, (length b + 1 < rfuel)%nat -> let q := ix_queries rfuel b gen in
      (forall (T : known) (p : cpath) (isd : bool) (n : node_state), session q T -> In (p, isd, n) T -> exists t, tree_sub (TDir kids) p = Some t /\ isd = is_tdir t /\ shows_node q (file_reader D) t n) /\
      (forall (T : known) (p : cpath) t, session q T -> (exists n, In ([], true, n) T) -> tree_sub (TDir kids) p = Some t -> exists T' n, session q T' /\ incl (map fst T) (map fst T') /\ In (p, is_tdir t, n) T').
Proof.
  intros o1 h g1 txt id a img gen base kids N HO Hd Hm Hf Hb HS Hid HZ Hg Hba HW HF HN HD D. pose proof bs_pos as HB. assert (HN0 : 0 <= N) by lia.
  pose proof (m_volume id gen base kids N Hid Hg Hba HW HF HN0 HD) as HV. pose proof (m_big id gen base kids N Hid HN0 HD HN) as HBig.
  destruct (C93_mount o1 h g1 txt id a img _ _ _ HO Hd Hm Hf ltac:(rewrite Hb; exact HBig) ltac:(lia) HS Hid HZ ltac:(rewrite Hb; exact HV) (m_no_empty kids HW)) as (h1 & b & R1 & R2 & R3).
  exists h1, b. split; [exact R1|]. split; [exact R2|]. rewrite (m_tree kids HW) in R3. pose proof (sort_sub _ HW) as HSub. intros o2 g2 dir E1 E2. destruct (R3 o2 g2 dir E1 E2) as (gn & Q1 & Q2). exists gn. split; [exact Q1|]. intros rfuel Hr q. destruct (Q2 rfuel Hr) as [S1 S2]. split.
  - intros T p isd n HT Hin. destruct (S1 T p isd n HT Hin) as (t & A1 & A2 & A3). rewrite HSub in A1. destruct (tree_sub (TDir kids) p) as [u|] eqn:EU; [|discriminate]. cbn [option_map] in A1. assert (t = sort_tree u) as -> by congruence. exists u. split; [reflexivity|]. rewrite sort_tdir in A2. split; [exact A2|]. apply sort_shows; [exact (writable_sub _ _ _ HW EU)|exact A3].
  - intros T p t HT Hr0 HP. destruct (S2 T p (sort_tree t) HT Hr0) as (T' & n & B1 & B2 & B3); [rewrite HSub, HP; reflexivity|]. rewrite sort_tdir in B3. exists T', n. auto.
Qed.
Print Assumptions C93_written_recovered. Print Assumptions C93_written_mounted.

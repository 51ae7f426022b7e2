(** C93: the image of the writer of SpecMkfs carries the volume. *)
From Verif Require Import Go GoProofs Layout LayoutProofs SpecLayout LeafProofs StructProofs PropsLayout KeyFmt KeyProofs Bolt Store SpecStore Session PropsSession IoUtil Crc PropsCrc Recon PropsRecon PropsReconEx.
From Verif Require Import Path Fs SpecFs SpecContent SpecTree TreeRun SpecDisk SpecVolume VolumeProofs SpecMkfs MkfsProofs.
From Coq Require Import List Lia ZifyBool ZifyNat ZifyN Sorting.Sorted Permutation.
From Verif Require Import Go.
Ltac Zify.zify_post_hook ::= Z.div_mod_to_equations.
#[local] Opaque BS.

(** ** any image made of blocks *)
Lemma blocks_of id bs bls iss N : 0 < bs -> 0 <= N -> Forall (fun bl => zlen bl = bs) bls -> Forall2 (contributes id bs) bls iss -> image_items id (image_of bs bls N) bs (concat iss).
Proof.
  intros Hb HN HL HC. pose proof (image_of_blocks bs N bls Hb HN HL) as HB. assert (HP : 0 <= N / bs) by (apply Z.div_pos; lia).
  exists (iss ++ repeat [] (Z.to_nat (N / bs))). assert (EL : length bls = length iss) by (clear -HC; induction HC; cbn [length]; congruence). split; [|split].
  - rewrite concat_app. assert (E : forall n, concat (repeat (@nil insertion) n) = []) by (induction n; [reflexivity|assumption]). rewrite E, app_nil_r. reflexivity.
  - rewrite HB, zlen_app, zlen_repeat, Z2Nat.id by exact HP. unfold zlen. rewrite EL. reflexivity.
  - intros k i Hk. destruct (Nat.lt_ge_cases k (length iss)) as [Hl|Hl].
    + rewrite nth_error_app1 in Hk by exact Hl. destruct (nth_error bls k) as [bl|] eqn:EB; [|apply nth_error_None in EB; lia].
      rewrite (image_of_block bs N bls Hb HL k bl EB). clear -HC Hk EB. revert k Hk EB. induction HC as [|x y l m Hxy HC IH]; intros [|k] Hk EB; cbn [nth_error] in *; try discriminate; [congruence|exact (IH k Hk EB)].
    + rewrite nth_error_app2 in Hk by exact Hl. apply nth_error_In in Hk. apply repeat_spec in Hk. subst i. apply c_foreign, zeros_foreign, image_of_rest; [lia|exact HL|lia].
Qed.
Lemma concat_zlen bs (l : list (list byte)) : Forall (fun bl => zlen bl = bs) l -> zlen (concat l) = bs * zlen l.
Proof. induction 1 as [|x l Hx _ IH]; cbn [concat]; [unfold zlen; cbn [length]; lia|]. rewrite zlen_app, IH, Hx. unfold zlen. cbn [length]. lia. Qed.

(** ** leaves *)
Definition shaped (f : fld) : Prop := match f with I _ _ => True | Raw w b => length b = w end.
Lemma ser_sum fs : Forall shaped fs -> zlen (ser fs) = sumw fs.
Proof.
  induction 1 as [|x l Hx _ IH]; [reflexivity|]. unfold ser. cbn [flat_map sumw]. rewrite zlen_app. fold (ser l). rewrite IH. f_equal. destruct x as [w v|w b]; cbn [ser1 fw shaped] in *; unfold zlen; [rewrite le_encode_length; reflexivity|congruence].
Qed.
Definition item_fit (x : Key * list byte) : Prop :=
  0 <= ObjectID (fst x) < 2^64 /\ 0 <= KType (fst x) < 256 /\ 0 <= KOffset (fst x) < 2^64 /\ zlen (snd x) <= 8192.
Section Leaf.
  Variables (id : list byte) (gen : Z).
  Hypothesis Hid : length id = 16%nat.
  Hypothesis Hgen : 0 <= gen < 2^64 - 1.
  (** the item as recon stores it *)
  Definition ins (o : Z) (x : Key * list byte) : insertion :=
    mkIns (fst x) o gen (ser (item_fields {| it_key := le_key (one_item x); it_offset := BS - 101 - zlen (snd x); it_size := zlen (snd x) |})) (snd x).
  Lemma leaf_ins o x : leaf_items (header id gen o) (BS - 101) [one_item x] = [ins o x].
  Proof. destruct x as [[k1 k2 k3] d]. reflexivity. Qed.
  Lemma leaf_good o x : 0 <= o < 2^64 - 1 -> item_fit x -> zlen (leaf_of id gen o x) = BS /\ contributes id BS (leaf_of id gen o x) [ins o x].
  Proof.
    intros Ho (H1 & H2 & H3 & H4). pose proof bs_pos as HB. pose proof (zlen_nonneg (snd x)) as H0. destruct x as [[k1 k2 k3] d]. cbn [fst snd ObjectID KType KOffset] in *.
    assert (HL : zlen (leaf_of id gen o (mkKey k1 k2 k3, d)) = BS).
    { unfold leaf_of, leaf_block. rewrite !zlen_app. rewrite (ser_sum (header_fields _)), (ser_sum (leaf_heads _ _)).
      - cbn [leaf_heads item_fields key_fields app sumw fw header_fields]. cbn [map rev app concat one_item le_data snd]. rewrite app_nil_r, zlen_repeat. lia.
      - cbn [leaf_heads item_fields key_fields app]. repeat constructor.
      - unfold header_fields, header. cbn [h_csum h_fsid h_bytenr h_flags h_chunk_tree_uuid h_generation h_owner h_nritems h_level]. repeat constructor; exact Hid. }
    split; [exact HL|]. rewrite <- leaf_ins. unfold leaf_of. apply c_leaf.
    - split; [|split; [reflexivity|split; [|split; [exact HL|lia]]]].
      + unfold header_fields, header. cbn [h_csum h_fsid h_bytenr h_flags h_chunk_tree_uuid h_generation h_owner h_nritems h_level].
        repeat (constructor; [cbn [fit1]; try reflexivity; try exact Hid; try change (256 ^ Z.of_nat 8) with (2^64); try change (256 ^ Z.of_nat 4) with (2^32); try change (256 ^ Z.of_nat 1) with 256; lia|]); constructor.
      + cbn [leaf_heads item_fields key_fields app one_item le_key le_data fst snd it_key it_offset it_size k_objectid k_type k_offset ObjectID KType KOffset].
        repeat (constructor; [cbn [fit1]; try change (256 ^ Z.of_nat 8) with (2^64); try change (256 ^ Z.of_nat 4) with (2^32); try change (256 ^ Z.of_nat 1) with 256; lia|]); constructor.
    - reflexivity.
    - reflexivity.
    - discriminate.
    - cbn [header h_owner]. lia.
  Qed.
End Leaf.

(** ** sizes of the items *)
Lemma own_fit attrs bl w : placed bl w -> 0 <= v_ino w < 2^64 -> Forall item_fit (own attrs w).
Proof.
  intros HP Hi. pose proof bs_pos as HB. unfold own. constructor.
  { unfold item_fit, inode_item. cbn [fst snd ObjectID KType KOffset]. rewrite ser_sum; [|repeat constructor]. cbn [inode_fields ts_fields app sumw fw]. lia. }
  assert (HI : forall i c, 0 <= i < 2^64 -> zlen c <= 4096 -> item_fit (inline_item attrs i c)).
  { intros i c Hi' Hc. unfold item_fit, inline_item. cbn [fst snd ObjectID KType KOffset]. rewrite ser_sum; [|repeat constructor]. unfold fe_inline_fields, fe_head_fields. cbn [fi_head fi_data app sumw fw]. unfold zlen in Hc. lia. }
  destruct w as [i [c|size ps]|i s|i kids]; cbn [placed v_ino] in *.
  - constructor; [apply HI; [exact Hi|lia]|constructor].
  - destruct HP as (c & pre & post & _ & _ & -> & _). cbn [piece_items]. constructor; [|constructor]. unfold item_fit, piece_item. cbn [fst snd ObjectID KType KOffset]. rewrite ser_sum; [|repeat constructor]. cbn [fe_reg_fields fe_head_fields app sumw fw fr_head]. lia.
  - constructor; [|constructor]. apply HI; [exact Hi|]. unfold path_arg in HP. lia.
  - apply Forall_map. apply Forall_forall. intros k Hk. destruct HP as [HN _]. rewrite Forall_forall in HN. destruct (HN k Hk) as (_ & _ & Hl). unfold item_fit, name_item. cbn [fst snd ObjectID KType KOffset]. rewrite ser_sum; [|repeat constructor].
    unfold dir_item_fields, key_fields. cbn [di_location di_transid di_type di_name di_data k_objectid k_type k_offset app sumw fw length]. pose proof (C31_fits (fst k)) as Hh. unfold is_u32 in Hh. unfold zlen in Hl. lia.
Qed.

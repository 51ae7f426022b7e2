(** C88: two concrete images of parts of one file system; and an old item that stays although --append is not given. *)
From Verif Require Import Go GoProofs Layout LayoutProofs SpecLayout LeafProofs StructProofs PropsLayout KeyFmt KeyProofs Bolt Store StoreProofs SpecStore RangeProofs PropsStore Session PropsSession IoUtil Recon ReconCmd PropsRecon PropsReconAny PropsReconEx PropsReconFault PropsRestart PropsAppend.
From Verif Require Import PropsPath ToString Fs Recover SpecFs SpecContent SpecTree SpecDisk DiskProofs PropsRecoverEx PropsTreeEx PropsDiskEx PropsMountLossEx.
From Coq Require Import ZifyBool ZifyNat ZifyN.
Ltac Zify.zify_post_hook ::= Z.div_mod_to_equations.

Definition part_A : list (list byte) := firstn 3 n_blocks.
Definition part_B : list (list byte) := skipn 3 n_blocks.
Lemma parts_ok : Forall2 (contributes id0 4096) part_A (firstn 3 n_iss) /\ Forall2 (contributes id0 4096) part_B (skipn 3 n_iss).
Proof.
  pose proof n_ok as H. unfold part_A, part_B. unfold n_blocks, n_iss in *. cbn [firstn skipn].
  inversion H as [|? ? ? ? P1 Ha]; inversion Ha as [|? ? ? ? P2 Hb]; inversion Hb as [|? ? ? ? P3 Hc]. clear H Ha Hb. split; [repeat (apply Forall2_cons; [assumption|]); apply Forall2_nil|exact Hc].
Qed.
Lemma parts_len : Forall (fun bl => zlen bl = 4096) part_A /\ Forall (fun bl => zlen bl = 4096) part_B.
Proof. split; apply Forall_forall; intros bl H; pose proof n_lens as L; rewrite Forall_forall in L; apply L; [exact (In_firstn' _ _ _ H)|exact (In_skipn' _ _ _ H)]. Qed.
#[local] Opaque id0 n_blocks n_iss part_A part_B.
(** both halves: the whole volume's items *)
Example C88_ex : forall ap N M, enough N -> enough M -> let A := image_of 4096 part_A N in let B := image_of 4096 part_B M in
  exists b1 b2, doScanFS_opts true true PropsRecon.no_faults (file_dev A) 4096 (mkScanOptions id0 ap) None = (Some b1, XOk) /\
    doScanFS_opts true true PropsRecon.no_faults (file_dev B) 4096 (mkScanOptions id0 ap) (Some b1) = (Some b2, XOk) /\
    (exists v, stored b2 5 (mkKey 256 1 0) 7 v) /\ (exists v, stored b2 256 (mkKey 256 1 0) 7 v).
Proof.
  intros ap N M HN HM A B. destruct parts_ok as [PA PB]. destruct parts_len as [LA LB].
  destruct (blocks_image id0 part_A _ N HN LA ltac:(vm_compute; reflexivity) PA) as [BA IA]. destruct (blocks_image id0 part_B _ M HM LB ltac:(vm_compute; reflexivity) PB) as [BB IB]. fold A in BA, IA. fold B in BB, IB. clearbody A B.
  destruct (C88_two_images (mkScanOptions id0 ap) A B 4096 _ _ BA BB ltac:(lia) id0_len id0_nonzero IA IB) as (b1 & b2 & H1 & H2 & H3). exists b1, b2. split; [exact H1|]. split; [exact H2|].
  assert (HE : concat (firstn 3 n_iss) ++ concat (skipn 3 n_iss) = n_is) by (rewrite <- concat_app, firstn_skipn; reflexivity). rewrite HE in H3.
  assert (HL : forall ow k g, wf_tuple ow k g -> ow <> 2^64 - 1 -> existsb (fun i => (i_owner i =? ow) && (i_gen i =? g) && (ObjectID (i_key i) =? ObjectID k) && (KType (i_key i) =? KType k) && (KOffset (i_key i) =? KOffset k)) n_is = true -> exists v, stored b2 ow k g v).
  { clear -H3. intros ow k g WT Ho HX. specialize (H3 ow k g). set (is := n_is) in *. clearbody is.
    assert (G : exists a i c, is = a ++ i :: c /\ same_tuple i ow k g /\ forall j, In j c -> ~ same_tuple j ow k g).
    { clear H3. induction is as [|i is IH]; [discriminate|]. cbn [existsb] in HX. destruct (existsb (fun i0 => (i_owner i0 =? ow) && (i_gen i0 =? g) && (ObjectID (i_key i0) =? ObjectID k) && (KType (i_key i0) =? KType k) && (KOffset (i_key i0) =? KOffset k)) is) eqn:EX.
      - destruct (IH eq_refl) as (a & j & c & -> & R). exists (i :: a), j, c. split; [reflexivity|exact R].
      - exists [], i, is. split; [reflexivity|]. rewrite orb_false_r in HX. destruct i as [[k1 k2 k3] io ig it da], k as [m1 m2 m3]. cbn [i_owner i_gen i_key ObjectID KType KOffset] in HX. split; [unfold same_tuple; cbn [i_owner i_gen i_key]; repeat split; try lia; f_equal; lia|].
        intros j Hj (E1 & E2 & E3). assert (X : existsb (fun i0 => (i_owner i0 =? ow) && (i_gen i0 =? g) && (ObjectID (i_key i0) =? m1) && (KType (i_key i0) =? m2) && (KOffset (i_key i0) =? m3)) is = true) by (apply existsb_exists; exists j; split; [exact Hj|rewrite E1, E2, E3; cbn [ObjectID KType KOffset]; rewrite !Z.eqb_refl; reflexivity]). cbn [ObjectID KType KOffset] in EX. congruence. }
    destruct G as (a & i & c & G1 & G2 & G3). exists (i_item i ++ i_data i). apply (H3 _ WT Ho). exists a, i, c. auto. }
  split; apply HL; try (vm_compute; reflexivity); try lia; unfold wf_tuple, wf_Key, is_u64, is_u8; cbn [ObjectID KType KOffset]; lia.
Qed.
(** The option does nothing: without --append, scanning an image without any item keeps every item of the old file. *)
Theorem C88_starts_afresh_refuted : exists o dev bs b b' k v, so_append o = false /\ whole_reads dev bs /\
  doScanFS_opts true true PropsRecon.no_faults dev bs o (Some b) = (Some b', XOk) /\ In (k, v) b' /\ k <> metadataKey /\
  ~ exists i, device_item dev bs (so_id o) i /\ newIndexKey (i_owner i) (i_key i) (i_gen i) = k.
Proof.
  assert (HN : enough (2^27)) by (unfold enough; lia). destruct parts_ok as [PA _]. destruct parts_len as [LA _].
  destruct (blocks_image id0 part_A _ (2^27) HN LA ltac:(vm_compute; reflexivity) PA) as [BA IA]. destruct (blocks_image id0 [] [] (2^27) HN ltac:(constructor) ltac:(vm_compute; reflexivity) ltac:(constructor)) as [BB IB].
  set (A := image_of 4096 part_A (2^27)) in *. assert (HZ : PropsReconEx.zeros (image_of 4096 [] (2^27))) by (unfold image_of; cbn [concat]; rewrite app_nil_l; apply Forall_app; split; apply zeros_repeat). set (B := image_of 4096 [] (2^27)) in *. clearbody A B.
  destruct (C88_two_images (mkScanOptions id0 false) A B 4096 _ _ BA BB ltac:(lia) id0_len id0_nonzero IA IB) as (b1 & b2 & _ & H2 & H3).
  exists (mkScanOptions id0 false), (file_dev B), 4096, b1, b2.
  assert (HS : exists v, stored b2 5 (mkKey 256 1 0) 7 v).
  { cbn [concat] in H3. rewrite app_nil_r in H3. assert (WT : wf_tuple 5 (mkKey 256 1 0) 7) by (unfold wf_tuple, wf_Key, is_u64, is_u8; cbn [ObjectID KType KOffset]; lia).
    assert (HI : exists i c, concat (firstn 3 n_iss) = i :: c /\ same_tuple i 5 (mkKey 256 1 0) 7 /\ forallb (fun j => negb (KType (i_key j) =? 1) || negb (ObjectID (i_key j) =? 256)) c = true).
    { set (l := concat (firstn 3 n_iss)). destruct l as [|i c] eqn:EL; [exfalso; revert EL; vm_compute; discriminate|]. exists i, c. split; [reflexivity|].
      assert (X : match l with [] => false | i :: c => (i_owner i =? 5) && (i_gen i =? 7) && (ObjectID (i_key i) =? 256) && (KType (i_key i) =? 1) && (KOffset (i_key i) =? 0) && forallb (fun j => negb (KType (i_key j) =? 1) || negb (ObjectID (i_key j) =? 256)) c end = true) by (vm_compute; reflexivity).
      rewrite EL in X. apply andb_prop in X as [X1 X2]. split; [|exact X2]. clear -X1. destruct i as [[k1 k2 k3] io ig it da]. cbn [i_owner i_gen i_key ObjectID KType KOffset] in X1. unfold same_tuple. cbn [i_owner i_gen i_key]. repeat split; try lia. f_equal; lia. }
    destruct HI as (i & c & E & HT & HF). exists (i_item i ++ i_data i). apply (H3 _ _ _ _ WT ltac:(lia)). exists [], i, c. split; [exact E|]. split; [exact HT|]. split; [reflexivity|]. intros j Hj (_ & Ek & _). rewrite forallb_forall in HF. specialize (HF j Hj). cbn beta in HF. rewrite Ek in HF. discriminate. }
  destruct HS as (v & HS). exists (newIndexKey 5 (mkKey 256 1 0) 7), v. split; [reflexivity|]. split; [|split; [exact H2|split; [exact HS|split; [intros E; vm_compute in E; discriminate|]]]].
  - intros off bl H. cbn [file_dev dev_read] in H. unfold file_reader in H. destruct (off <? 0); [discriminate|]. cbv zeta in H. set (d := firstn _ _) in H. destruct (zlen d =? 4096) eqn:E; [|destruct (zlen d <? 4096) eqn:E2; try discriminate].
    + destruct (zlen d <? 4096) eqn:E2; [lia|]. assert (bl = d) by congruence. subst bl. lia.
    + assert (bl = d) by congruence. subst bl. unfold d in *. rewrite zlen_firstn_le in * by lia. lia.
  - intros (i & (off & bl & j & H & HF & _) & _). apply HF. apply zeros_foreign. cbn [file_dev dev_read] in H. unfold file_reader in H. destruct (off <? 0); [discriminate|]. cbv zeta in H.
    assert (Hd : PropsReconEx.zeros (firstn (Z.to_nat 4096) (skipn (Z.to_nat off) B))) by exact (zeros_sub off 4096 B HZ). destruct (zlen _ <? 4096) in H; [discriminate|]. assert (E : bl = firstn (Z.to_nat 4096) (skipn (Z.to_nat off) B)) by congruence. rewrite E. exact Hd.
Qed.
Print Assumptions C88_ex. Print Assumptions C88_starts_afresh_refuted.

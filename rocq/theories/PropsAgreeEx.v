(** C87: a concrete image; file x of subvolume s, as mounted and as restored. *)
From Verif Require Import Go GoProofs Layout LayoutProofs SpecLayout KeyFmt KeyProofs Bolt Store StoreProofs SpecStore Session PropsSession IoUtil Recon PropsRecon PropsReconEx RangeItems.
From Verif Require Import PropsPath ToString Fs Recover SpecFs SpecContent SpecTree SpecDisk DiskProofs PropsDest PropsDisk Rescue PropsRescueRead PropsRescueNode SpecMount PropsMount PropsMountDisk.
From Verif Require Import PropsRecoverEx PropsTreeEx PropsDiskEx PropsDamageEx PropsMountLossEx SpecAgree PropsAgree.
From Coq Require Import List Permutation ZifyBool ZifyNat ZifyN.
Ltac Zify.zify_post_hook ::= Z.div_mod_to_equations.

Lemma n_volume D : volume_shows qn D n_tree.
Proof.
  exists n_tree, [(5, 256); (5, 257); (256, 256)], []. split; [exact (n_shows D)|]. split; [repeat constructor; vm_compute; intuition discriminate|].
  split; [st (st_items (q_subvolumes qn)); apply subs_seen; [vm_compute; auto|apply subs_nil]|]. split; [vm_compute; reflexivity|]. split; [rewrite app_nil_r; reflexivity|]. intros n _ [].
Qed.
Lemma n_short : paths_short (abs1 s_d) n_tree.
Proof.
  intros r Hr. apply in_all_paths in Hr. revert r Hr. apply Forall_forall. vm_compute. repeat constructor.
Qed.
#[local] Opaque id0 n_blocks n_is n_tree qn.
(** the whole image: x is restored and x is mounted, and both are "abc" *)
Example C87_ex : forall N cfuel, enough N -> 2^64 < Z.of_nat cfuel -> let D := image_of 4096 n_blocks N in
  exists b ix, doScanFS true true PropsRecon.no_faults (file_dev D) 4096 id0 None = (Some b, XOk) /\ OpenReadOnly (Some b) = Ok (Some b, Some ix) /\
    forall rfuel, (length b + 1 < rfuel)%nat -> let q := ix_queries rfuel b (ix_Generation ix) in
    exists fuel w' v, doRecoverFiles fuel cfuel E0 (file_reader D) q false (abs1 s_d) (w0 F_o) = (w', Ret (true, v)) /\
      (forall T p isd n, session q T -> In (p, isd, n) T -> same_as q (file_reader D) n isd (w_fs w') ([s_d] ++ p)) /\
      look (w_fs w') [s_d; s_s; s_x] = Some (NFile b_abc) /\ exists T n, session q T /\ In ([s_s; s_x], false, n) T.
Proof.
  intros N cfuel HN Hcf D. destruct (blocks_image id0 n_blocks n_iss N HN n_lens ltac:(vm_compute; reflexivity) n_ok) as [HB HI]. fold D in HB, HI. change (concat n_iss) with n_is in HI.
  destruct (C87_mount_shows_what_recover_restores id0 D 4096 n_is [] n_tree _ E0 (abs1 s_d) (w0 F_o) [s_d] cfuel HB ltac:(lia) id0_len id0_nonzero HI n_orderly n_chunks (n_volume D) (n_shows D) n_mountable ltac:(intros n k; reflexivity) Hcf o_dest n_short o_look) as (b & ix & R1 & R2 & R3).
  exists b, ix. split; [exact R1|]. split; [exact R2|]. intros rfuel Hr q. destruct (R3 rfuel Hr) as (fuel & w' & v & Q1 & QT & Q2 & Q3). fold q in Q1, Q2, Q3. exists fuel, w', v. split; [exact Q1|]. split; [exact Q2|].
  assert (HL : look (w_fs w') [s_d; s_s; s_x] = Some (NFile b_abc)) by exact (QT [s_s; s_x]). split; [exact HL|].
  destruct (Q3 _ [s_s; s_x] (ses_mount q) (ex_intro _ _ (or_introl eq_refl))) as (T & isd & n & H1 & H2); [change ([s_d] ++ [s_s; s_x]) with [s_d; s_s; s_x]; rewrite HL; discriminate|].
  pose proof (Q2 T _ _ _ H1 H2) as HS. unfold same_as in HS. change ([s_d] ++ [s_s; s_x]) with [s_d; s_s; s_x] in HS. rewrite HL in HS. destruct HS as (-> & _). exists T, n. split; [exact H1|exact H2].
Qed.
Print Assumptions C87_ex.

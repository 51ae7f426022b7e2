(** C94: examples. *)
From Verif Require Import Go GoProofs Layout LayoutProofs SpecLayout KeyFmt Bolt Store IoUtil Recon PropsRecon PropsReconEx PropsPath Fs Recover SpecFs SpecContent SpecTree SpecDisk PropsDest Rescue PropsRescueRead PropsRescueNode SpecMount PropsMount PropsMountEx PropsRecoverEx PropsTreeEx MountTop PropsMountTop.
From Coq Require Import List Permutation.
From Verif Require Import Go.

(** a volume whose top directory has lost its inode item: recover brings the file in it back, the mount shows nothing *)
Definition r_items : list item := [dir_at 5 256 100 (mkdi 257 1 1 s_x); irec 5 257 3; inl 5 257 0 b_abc].
Definition qr : queries := ixq r_items.
Theorem C94_refuted :
  (exists w' v, doRecoverFiles 10 10 E0 (file_reader []) qr false (abs1 s_d) (w0 F_d) = (w', Ret (true, v)) /\ look (w_fs w') [s_d; s_x] = Some (NFile b_abc)) /\
  (forall now s t flip, top_state qr now s t -> exists t', root_OpenDir qr flip t = Ok (t', [(n_metadata, a_mode (newMetadataNode s))])) /\
  (forall now s t, top_state qr now s t -> exists t', root_Lookup qr t n_rescue = Ok (t', None, St ENOATTR)).
Proof.
  assert (HN : q_inode qr FSTreeObjectID FirstFreeObjectID = Ok None) by (vm_compute; reflexivity). split; [|split].
  - eexists. eexists. split; vm_compute; reflexivity.
  - intros now s t flip HS. apply (C94_root_lost qr now s t HS HN).
  - intros now s t HS. apply (C94_root_lost qr now s t HS HN).
Qed.
(** a volume that has it, asked before and after other requests *)
Example C94_ex_root : has_inode qm FSTreeObjectID FirstFreeObjectID (mkino 0) /\ forall now s, exists t1 a t2 es, root_Lookup qm (mounted_top now s) n_rescue = Ok (t1, a, St OK) /\ root_OpenDir qm true t1 = Ok (t2, es) /\ top_state qm now s t2 /\ length es = 2%nat.
Proof.
  assert (HI : has_inode qm FSTreeObjectID FirstFreeObjectID (mkino 0)) by (apply m_inode; [vm_compute; reflexivity|apply fits_b; vm_compute; reflexivity]). split; [exact HI|]. intros now s.
  destruct (C94_root qm now s _ _ (top_mounted _ _ _) HI) as (_ & (t1 & H1) & _). pose proof (top_lookup _ _ _ _ _ _ _ _ (top_mounted qm now s) H1) as T1.
  destruct (C94_root qm now s _ _ T1 HI) as (H & _). destruct (H true) as (t2 & es & H2 & HP). exists t1, (Some (attr_of FirstFreeObjectID (mkino 0))), t2, es. split; [exact H1|]. split; [exact H2|]. split; [exact (top_list _ _ _ _ _ _ _ T1 H2)|]. rewrite (Permutation_length HP). reflexivity.
Qed.
(** a session with the metadata file, which the process may not open for writing *)
Definition ro_may (flags : Z) : bool := access flags =? 0.
Definition m_session : list mreq := [QOpen 0; QOpen 1; QRead 0 1 10; QWrite 0 0 [x00]; QTruncate 0; QRead 0 0 2; QRead 0 7 4; QOther].
Example C94_ex_metadata : Forall from_kernel m_session /\ metadata_run ro_may (mkMfile (Some b_abc) []) m_session =
  (mkMfile (Some b_abc) [0], [AHandle (Some 0%nat) (St OK); AHandle None EACCES; ABytes (skipn 1 b_abc) (St OK); AStatus EPERM; AStatus ENOSYS; ABytes (firstn 2 b_abc) (St OK); ABytes [] (St OK); AStatus ENOSYS]).
Proof. split; [repeat constructor|vm_compute; reflexivity]. Qed.
Example C94_ex_trunc : has 0x201 O_TRUNC = true /\ ~ from_kernel (QOpen 0x201).
Proof. split; [reflexivity|]. intros (_ & _ & H). discriminate H. Qed.
Print Assumptions C94_refuted. Print Assumptions C94_ex_root.

(** C75: the volume of C67 on a device whose byte 24 (part of the file f) cannot be read. *)
From Verif Require Import Go GoProofs Layout KeyFmt KeyProofs Bolt Store MkIndex PropsPath ToString Fs Recover RecoverProofs SpecFs SpecContent PathProofs PropsRecoverFile PropsRecoverEx SpecTree SpecDamage TreeProofs TreeRun TreeFull PropsTree PropsTreeEx PropsDamage.
From Coq Require Import ZifyBool ZifyNat ZifyN.
Ltac Zify.zify_post_hook ::= Z.div_mod_to_equations.

Definition spoilt (b : Z) (D : list byte) : readerAt := fun n off => if (off <=? b) && (b <? off + n) then ([], Some EOther) else file_reader D n off.
Lemma spoilt_damaged b D : damaged (fun p => p = b) D (spoilt b D).
Proof.
  destruct (file_reader_good D) as [H1 H2]. split.
  - intros n off. unfold spoilt. destruct ((off <=? b) && (b <? off + n)); [|exact (H1 n off)]. split; [reflexivity|]. intros A B. split; [exact B|]. split; [reflexivity|discriminate].
  - intros n off Ho Hn Hl Hb. unfold spoilt. destruct ((off <=? b) && (b <? off + n)) eqn:EB; [exfalso; apply (Hb b); [lia|reflexivity]|]. exact (H2 n off Ho Hn Hl).
Qed.
Ltac it l := let x := fresh "l" in set (x := l); vm_compute in x; subst x.
Example C75_ex cfuel : 2^64 < Z.of_nat cfuel -> exists fuel w' v,
  doRecoverFiles fuel cfuel E0 (spoilt 24 ex_dev) qv false (abs1 s_d) (w0 F_d) = (w', Ret (true, v)) /\
  look (w_fs w') [s_d; s_a; s_g] = Some (NFile (bz_s [120; 121])) /\ look (w_fs w') [s_d; s_l] = Some (NLink (bz_s [97; 47; 103])) /\
  look (w_fs w') [s_d; s_s; s_x] = Some (NFile b_abc) /\ look (w_fs w') [s_d; subvol_prefix ++ dec 257; s_y] = Some (NFile []) /\
  part_of_tree (w_fs w') [s_d] (TDir vol_tree).
Proof.
  intros HF. destruct (C75_damaged_device cfuel E0 (spoilt 24 ex_dev) ex_dev qv _ false (abs1 s_d) (w0 F_d) [s_d] vol_tree ltac:(intros n k; reflexivity) (spoilt_damaged 24 ex_dev) ltac:(vm_compute; reflexivity) HF vol_shows vol_dest vol_short (proj1 vol_empty) (proj2 vol_empty)) as (f0 & H).
  destruct (H f0 (le_n f0)) as (w' & v & H1 & H2 & H3 & _). exists f0, w', v. split; [exact H1|].
  assert (Hinl : forall o i t, (exists k e, st_items (q_extents qv o i) = [(k, e)] /\ FileExtentItem_Type e = Ok 0) \/ st_items (q_extents qv o i) = [] -> file_safe qv t o i).
  { intros o i t [(k & e & HQ & HT)|HQ] xs off n src p HX Hin Hp; rewrite HQ in HX.
    - inversion HX as [|? x ? xs' HX1 HX2]; subst. inversion HX2; subst. destruct Hin as [->|[]].
      destruct HX1 as [(d & _ & _ & X)|[(ty & n' & A & B & _ & _ & X)|(ty & n' & nr & id & phys & o' & A & B & _)]]; [discriminate X|discriminate X|congruence].
    - inversion HX; subst. destruct Hin. }
  split; [|split; [|split; [|split; [|exact H3]]]].
  - refine (H2 [s_a; s_g] _). apply vol_main. eapply intact_entry.
    { it (st_items (q_dirItems qv FSTreeObjectID FirstFreeObjectID)). left. reflexivity. }
    apply (intact_sub _ _ 5 _ s_a 5 257); [vm_compute; reflexivity|nd; right; split; [discriminate|split; reflexivity]|]. eapply intact_entry.
    { it (st_items (q_dirItems qv 5 257)). left. reflexivity. }
    eapply intact_file; [sys|vm_compute; discriminate|]. apply Hinl. left. do 2 eexists. split; vm_compute; reflexivity.
  - refine (H2 [s_l] _). apply vol_main. eapply intact_entry.
    { it (st_items (q_dirItems qv FSTreeObjectID FirstFreeObjectID)). right. right. left. reflexivity. }
    eapply intact_link; [sys|vm_compute; discriminate|]. intros e ty n nr id phys eo p A B C. exfalso. apply C. vm_compute in A. assert (X : forall a b : slice, Ok (Some a) = Ok (Some b) -> a = b) by congruence. apply X in A. subst e. vm_compute in B. congruence.
  - refine (H2 [s_s; s_x] _). apply vol_main. eapply intact_entry.
    { it (st_items (q_dirItems qv FSTreeObjectID FirstFreeObjectID)). right. right. right. left. reflexivity. }
    apply (intact_sub _ _ 5 _ s_s 256 256); [vm_compute; reflexivity|nd; left; split; reflexivity|]. eapply intact_entry.
    { it (st_items (q_dirItems qv 256 256)). left. reflexivity. }
    eapply intact_file; [sys|vm_compute; discriminate|]. apply Hinl. left. do 2 eexists. split; vm_compute; reflexivity.
  - refine (H2 [subvol_prefix ++ dec 257; s_y] _). eapply (vol_extra _ _ _ _ (subvol_prefix ++ dec 257)).
    { it (st_items (q_subvolumes qv)). right. left. reflexivity. }
    { vm_compute. reflexivity. }
    { intros k' di. it (st_items (q_dirItems qv FSTreeObjectID FirstFreeObjectID)). intros HI. repeat (destruct HI as [HI|HI]; [assert (X : forall (a c : list byte) (b d : slice), (a, b) = (c, d) -> b = d) by congruence; apply X in HI; subst di; vm_compute; discriminate|]). destruct HI. }
    change (intact qv (fun p => p = 24) 257 256 [s_y]). eapply intact_entry.
    { it (st_items (q_dirItems qv 257 256)). left. reflexivity. }
    eapply intact_file; [sys|vm_compute; discriminate|]. apply Hinl. right. vm_compute. reflexivity.
Qed.

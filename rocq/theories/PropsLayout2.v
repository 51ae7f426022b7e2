(** C06, C34: the checksum item's accessor, and a new parse buffer. *)
From Verif Require Import Go GoProofs Layout ParseBuf PropsParse.

(** C06: the checksum of a checksum item is its first 32 bytes; of a shorter item (btrfs's default checksum has 4 bytes)
    it is the item followed by zeros. The accessor never panics. *)
Theorem C06_csum_item : forall s, slice_wf s -> exists c, CSumItem_CSum s = Ok c /\ length c = 32%nat /\
  forall j, (j < 32)%nat -> nth j c x00 = nth j (sbytes s) x00.
Proof.
  intros s W. unfold slice_wf in W. unfold CSumItem_CSum, go_from. rewrite go_slice_ok by (unfold scap; lia). unfold rbind. change (Z.to_nat 0) with 0%nat. cbn [skipn]. rewrite Z.sub_0_r. destruct s as [arr n].
  cbn [s_arr s_len]. set (d := firstn 32 (sbytes (mkSlice arr n))). exists (d ++ repeat x00 (32 - length d)). split; [reflexivity|].
  assert (Hd : (length d <= 32)%nat) by (unfold d; apply firstn_le_length). split; [rewrite app_length, repeat_length; lia|].
  intros j Hj. destruct (Nat.lt_ge_cases j (length d)) as [H|H].
  - rewrite app_nth1 by assumption. unfold d. rewrite nth_firstn' by lia. reflexivity.
  - rewrite app_nth2 by assumption. rewrite nth_repeat. unfold d in H. rewrite firstn_length in H. rewrite nth_overflow by lia. reflexivity.
Qed.
Print Assumptions C06_csum_item.
Example C06_ex_csum_item : slice_wf (sl [x01; x02; x03; x04]) /\ CSumItem_CSum (sl [x01; x02; x03; x04]) = Ok ([x01; x02; x03; x04] ++ repeat x00 28).
Proof. split; [vm_compute; split; discriminate|reflexivity]. Qed.

(** C34: a new buffer is over the slice given and starts at its first byte: the calls made on it read the slice's bytes in order *)
Theorem C34_new : forall s rs, slice_wf s -> Forall (fun r => 0 <= width r) rs -> total rs <= s_len s ->
  POffset (NewParseBuffer s) = 0 /\ PLen (NewParseBuffer s) = s_len s /\ Unread (NewParseBuffer s) = s_len s /\ PCap (NewParseBuffer s) = scap s /\
  exists b', calls rs (NewParseBuffer s) = (b', Ok (expected_all rs (sbytes s))).
Proof.
  intros s rs W HF Ht. split; [reflexivity|]. split; [reflexivity|]. split; [unfold Unread, PLen; cbn; lia|]. split; [reflexivity|].
  destruct (C34_sequential rs (NewParseBuffer s)) as (b' & E & _); [exact W|cbn; lia|exact HF|unfold Unread, PLen; cbn; lia|]. exists b'. exact E.
Qed.
Print Assumptions C34_new.

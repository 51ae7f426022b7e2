(** C72: a concrete image, that of C69, with five leaves near the first superblock. *)
From Verif Require Import Go GoProofs Layout LayoutProofs SpecLayout IoUtil Identify PropsIdentify PropsSamples PropsIdentifyAll PropsRecon PropsReconEx PropsDiskEx.
From Coq Require Import ZifyBool ZifyNat Sorting.Sorted Permutation List Lia.
Ltac Zify.zify_post_hook ::= Z.div_mod_to_equations.

Lemma round_fair size : 4096 <= size -> draws size 4096 (fun k => Z.of_nat k mod (size / 4096)) /\ fair size 4096 (fun k => Z.of_nat k mod (size / 4096)).
Proof.
  intros H. assert (0 < size / 4096) by (apply Z.div_str_pos; lia). split; [intros k; apply Z.mod_pos_bound; assumption|]. intros b Hb. exists (Z.to_nat b). rewrite Z2Nat.id by lia. apply Z.mod_small. exact Hb.
Qed.
Lemma round_avail size : 64 * 2^20 + 200 * 4096 <= size -> size < 256 * 2^30 -> exists avail, available size 4096 avail /\ zlen avail = size / 4096.
Proof.
  intros H1 H2. exists (map (fun k => Z.of_nat k * 4096) (seq 0 (Z.to_nat (size / 4096)))). split; [|unfold zlen; rewrite map_length, seq_length; lia]. split.
  - apply FinFun.Injective_map_NoDup; [intros a b E; lia|apply seq_NoDup].
  - intros o. rewrite in_map_iff. split.
    + intros (k & <- & Hk). apply in_seq in Hk. right. exists (Z.of_nat k). lia.
    + intros [(i & Hi & HF)|(b & Hb & ->)].
      * assert (HX : exists b, 0 <= b < size / 4096 /\ o = b * 4096).
        { destruct HF as [->|[->|[[HF _]|[HF _]]]]; [exists (16 + i)|exists (16384 + (i + 100))|lia|lia]; lia. }
        destruct HX as (b & Hb & ->). exists (Z.to_nat b). rewrite in_seq. lia.
      * exists (Z.to_nat b). rewrite in_seq. lia.
Qed.
Lemma ex_count z : 2^27 <= z < 2^31 -> fixed_count z <= clamp 3 1000 1000000 <= z / 4096.
Proof. intros H. unfold fixed_count, clamp. replace (2^50 <=? z) with false by lia. replace (256 * 2^30 <=? z) with false by lia. cbn [Z.ltb Z.compare Pos.compare Pos.compare_cont]. lia. Qed.
Lemma ps_nodup : NoDup (map (fun k => 65536 + 4096 * (Z.of_nat k + 1)) (seq 0 5)).
Proof. apply FinFun.Injective_map_NoDup; [intros a b Eab; lia|apply seq_NoDup]. Qed.
#[local] Opaque d_blocks id0.
(** at the defaults (1000 to 1000000 samples, at least 4 occurrences), with some fair random source *)
Example C72_ex : forall N, 2^27 <= N < 2^30 -> let D := image_of 4096 d_blocks N in
  exists fuel rows e, IdentifyFS fuel (fun k => Z.of_nat k mod (zlen D / 4096)) (fun _ => SpecFloat.S754_zero false) (zlen D, true) (file_reader D) 4096 3 1000 1000000 4 (fun h => h) = Ok (Some rows) /\
    In e rows /\ e_FSID e = id0 /\ 5 <= e_Count e.
Proof.
  intros N HN D. assert (HZ : zlen D = 65536 + 4096 + 4096 * zlen d_blocks + N) by (apply image_of_len; [lia|lia|exact d_lens]). assert (EB : zlen d_blocks = 6) by (vm_compute; reflexivity). rewrite EB in HZ.
  assert (HA : accepted (zlen D) 4096) by (unfold accepted; lia). assert (HR : room (zlen D) 4096) by (unfold room; lia).
  destruct (round_fair (zlen D) ltac:(lia)) as [Hd Hf]. destruct (round_avail (zlen D) ltac:(lia) ltac:(lia)) as (avail & Hav & Zav).
  destruct (C72_ends (fun k => Z.of_nat k mod (zlen D / 4096)) (fun _ => SpecFloat.S754_zero false) 4096 3 1000 1000000 4 (fun h => h) D avail HA HR ltac:(lia) Hd Hf Hav) as (fuel & rows & E).
  { rewrite Zav. apply ex_count. lia. }
  exists fuel, rows.
  set (ps := map (fun k => 65536 + 4096 * (Z.of_nat k + 1)) (seq 0 5)).
  assert (HP : forall o, In o ps -> fixed (zlen D) 4096 o /\ leaf_of id0 (block_at D 4096 o) = true).
  { intros o Ho. apply in_map_iff in Ho as (k & <- & Hk). apply in_seq in Hk. split; [exists (Z.of_nat k + 1); lia|].
    assert (HB : exists bl, nth_error d_blocks k = Some bl /\ leaf_of id0 bl = true).
    { assert (HF : forallb (fun k => match nth_error d_blocks k with Some bl => leaf_of id0 bl | None => false end) (seq 0 5) = true) by (vm_cast_no_check (eq_refl true)).
      rewrite forallb_forall in HF. assert (Hin : In k (seq 0 5)) by (apply in_seq; lia). specialize (HF k Hin). cbn beta in HF. destruct (nth_error d_blocks k) as [bl|]; [|discriminate]. eauto. }
    destruct HB as (bl & Hn & HL). rewrite <- (image_of_block 4096 N d_blocks ltac:(lia) d_lens k bl Hn) in HL. exact HL. }
  assert (ND : NoDup ps) by exact ps_nodup.
  assert (Hne : ps <> []) by (intros X; discriminate X). assert (Z5 : zlen ps = 5) by reflexivity. clearbody ps.
  assert (Hid : ~ no_id id0) by (intros [E0|E0]; apply (f_equal (fun l => bytes_eqb l (repeat x0a 16))) in E0; vm_compute in E0; discriminate).
  assert (U1 : is_u64 3 /\ is_u64 1000 /\ is_u64 1000000) by (unfold is_u64; clear; lia). destruct U1 as (U1 & U2 & U3).
  assert (Hm : 4 <= zlen ps) by (rewrite Z5; clear; lia). assert (H126 : 126 <= 4096) by (clear; lia).
  assert (HE : forall id : list byte, SpecFloat.S754_zero false <> SpecFloat.S754_nan) by (intros _ X; discriminate X).
  destruct (C72_found fuel (fun k => Z.of_nat k mod (zlen D / 4096)) (fun _ => SpecFloat.S754_zero false) 4096 3 1000 1000000 4 (fun h => h) D (Some rows) id0 ps HA HR H126 Hd U1 U2 U3 (fun h => Permutation_refl h) HE ND HP Hid Hne Hm E) as (rows' & e & E' & He & E1 & E2).
  exists e. split; [exact E|]. assert (rows' = rows) by congruence. subst rows'. split; [exact He|]. split; [exact E1|]. rewrite <- Z5. exact E2.
Qed.
Print Assumptions C72_ex.

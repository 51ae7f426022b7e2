(** C102: examples, and a negative fraction. *)
From Verif Require Import Go GoProofs Layout IoUtil Identify Fraction PropsRecon PropsSamples PropsIdentify PropsIdentifyAll PropsIdentifyEx PropsFraction PropsReconEx PropsDiskEx.
From Coq Require Import ZArith Reals Lia Lra Floats.SpecFloat List.
From Flocq Require Import Core BinarySingleNaN.
Open Scope Z_scope.

(** the default fraction, 0.0001: 26843 of the 268435456 blocks of 1 TiB *)
Definition default_fraction : spec_float := S754_finite false 7378697629483821 (-66).
Lemma default_number : number default_fraction /\ (0 <= value default_fraction <= 1)%R.
Proof.
  split; [split; vm_compute; reflexivity|]. cbn [SF2R default_fraction cond_Zopp]. unfold F2R. cbn [Fnum Fexp]. pose proof (bpow_gt_0 radix2 (-66)) as H0. split; [apply Rmult_le_pos; [apply IZR_le; lia|lra]|].
  apply Rle_trans with (IZR (2^66) * bpow radix2 (-66))%R; [apply Rmult_le_compat_r; [lra|apply IZR_le; lia]|]. replace (IZR (2^66)) with (bpow radix2 66) by (rewrite <- (IZR_Zpower radix2) by lia; reflexivity). rewrite <- bpow_plus. cbn. lra.
Qed.
Example C102_ex : sampleWish (fun _ => 0) default_fraction (2^40) 4096 = 26843 /\ (Rabs (IZR 26843 - value default_fraction * IZR (2^28)) < 1)%R.
Proof.
  assert (E : sampleWish (fun _ => 0) default_fraction (2^40) 4096 = 26843) by (vm_compute; reflexivity). split; [exact E|].
  pose proof (proj2 (C102_wish (fun _ => 0) default_fraction (2^40) 4096 (proj1 default_number) (proj2 default_number) ltac:(change (2^40 / 4096) with (2^28); lia))) as H. rewrite E in H. exact H.
Qed.
(** the fraction 1 *)
Example C102_ex_one : number (S754_finite false 4503599627370496 (-52)) /\ value (S754_finite false 4503599627370496 (-52)) = 1%R /\ sampleWish (fun _ => 0) (S754_finite false 4503599627370496 (-52)) (2^40) 4096 = 2^28.
Proof.
  split; [split; vm_compute; reflexivity|]. split; [|vm_compute; reflexivity]. cbn [SF2R cond_Zopp]. unfold F2R. cbn [Fnum Fexp]. replace (IZR 4503599627370496) with (bpow radix2 52) by (rewrite <- (IZR_Zpower radix2) by lia; reflexivity). rewrite <- bpow_plus. reflexivity.
Qed.
(** the image of C72, all of it *)
Definition one : spec_float := S754_finite false 4503599627370496 (-52).
#[local] Opaque d_blocks id0.
Example C102_ex_all : forall N, 2^27 <= N < 2^30 -> let D := image_of 4096 d_blocks N in
  exists fuel rows, IdentifyFS fuel (fun k => Z.of_nat k mod (zlen D / 4096)) (fun _ => SpecFloat.S754_zero false) (zlen D, true) (file_reader D) 4096 (sampleWish (fun _ => 0) one (zlen D) 4096) 1000 1000000 4 (fun h => h) = Ok (Some rows) /\
    forall id n, (exists e, In e rows /\ e_FSID e = id /\ e_Count e = n) <-> ~ no_id id /\ n = zlen (filter (fun o => leaf_of id (block_at D 4096 o)) (device_blocks D 4096)) /\ 0 < n /\ 4 <= n.
Proof.
  intros N HN D. assert (HZ : zlen D = 65536 + 4096 + 4096 * zlen d_blocks + N) by (apply image_of_len; [lia|lia|exact d_lens]). assert (EB : zlen d_blocks = 6) by (vm_compute; reflexivity). rewrite EB in HZ. clearbody D.
  assert (HA : accepted (zlen D) 4096) by (unfold accepted; lia). assert (HR : room (zlen D) 4096) by (unfold room; lia).
  destruct (round_fair (zlen D) ltac:(lia)) as [Hd Hf]. destruct (round_avail (zlen D) ltac:(lia) ltac:(lia)) as (avail & Hav & Zav).
  destruct C102_ex_one as (N1 & V1 & _). fold one in N1, V1. assert (HB : 32784 <= zlen D / 4096 <= 262166) by lia.
  assert (EW : sampleWish (fun _ => 0) one (zlen D) 4096 = zlen D / 4096) by (apply C102_exact; [exact N1|rewrite V1; lra|lia|rewrite V1; lra]).
  destruct (C72_ends (fun k => Z.of_nat k mod (zlen D / 4096)) (fun _ => SpecFloat.S754_zero false) 4096 (zlen D / 4096) 1000 1000000 4 (fun h => h) D avail HA HR ltac:(lia) Hd Hf Hav) as (fuel & rows & E).
  { rewrite Zav. unfold clamp, fixed_count. replace (zlen D / 4096 <? 1000) with false by (symmetry; apply Z.ltb_ge; lia). destruct (2^50 <=? zlen D); [lia|]. destruct (256 * 2^30 <=? zlen D); lia. }
  exists fuel, rows. assert (E1 : IdentifyFS fuel (fun k => Z.of_nat k mod (zlen D / 4096)) (fun _ => SpecFloat.S754_zero false) (zlen D, true) (file_reader D) 4096 (sampleWish (fun _ => 0) one (zlen D) 4096) 1000 1000000 4 (fun h => h) = Ok (Some rows)) by (rewrite EW; exact E).
  split; [exact E1|].
  destruct (C102_all (fun _ => 0) one fuel (fun k => Z.of_nat k mod (zlen D / 4096)) (fun _ => SpecFloat.S754_zero false) 4096 1000 1000000 4 (fun h => h) D (Some rows) HA HR ltac:(lia) ltac:(exists 16; reflexivity) ltac:(lia) Hd N1 V1 ltac:(lia) ltac:(lia) ltac:(intros h; apply Permutation_refl) ltac:(intros id; discriminate) E1) as (rows' & E' & H). assert (rows' = rows) by congruence. subst rows'. exact H.
Qed.
(** ** a negative fraction *)
(** what amd64 does: negative values wrap around *)
Definition amd64 (f : spec_float) : Z := match f with S754_finite true m e => u64 (- (if 0 <=? e then Zpos m * 2^e else Zpos m / 2^(-e))) | _ => 2^63 end.
(** -0.0001 *)
Definition minus_default : spec_float := S754_finite true 7378697629483821 (-66).
(** a device of 256 MiB: 1000000 blocks (--max-blocks) of the 65536 are wanted, and identify never ends *)
Theorem C102_negative_refuted : forall fuel rnd ent order D, zlen D = 2^28 -> draws (zlen D) 4096 rnd ->
  number minus_default /\ (value minus_default < 0)%R /\
  IdentifyFS fuel rnd ent (zlen D, true) (file_reader D) 4096 (sampleWish amd64 minus_default (zlen D) 4096) 1000 1000000 4 order = Timeout.
Proof.
  intros fuel rn ent order D HZ Hd. split; [split; vm_compute; reflexivity|]. split; [cbn; apply F2R_lt_0; reflexivity|].
  assert (EW : sampleWish amd64 minus_default (zlen D) 4096 = 2^64 - 6) by (rewrite HZ; vm_compute; reflexivity). rewrite EW. unfold IdentifyFS.
  assert (EC : CheckDeviceSize (zlen D, true) 4096 = (zlen D, true)) by (rewrite HZ; vm_compute; reflexivity). rewrite EC. cbn [negb]. change (4096 =? 0) with false. cbv iota zeta. change (2^64 - 6 <? 1000) with false. change (1000000 <? 2^64 - 6) with true. cbv iota.
  destruct (round_avail (zlen D) ltac:(lia) ltac:(lia)) as (avail & Hav & Zav). rewrite (C43_too_many_refuted fuel rn (zlen D) 4096 1000000 avail); [reflexivity|unfold accepted; lia|exact Hd|exact Hav|].
  rewrite Zav, HZ. vm_compute. reflexivity.
Qed.
Print Assumptions C102_negative_refuted.

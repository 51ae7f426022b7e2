(** C102: how many blocks identify samples for a --sample-fraction. *)
From Verif Require Import Go GoProofs Layout IoUtil Identify Fraction PropsRecon PropsSamples PropsIdentify PropsIdentifyAll.
From Coq Require Import ZArith Reals Lia Lra Floats.SpecFloat Sorted List.
From Verif Require Import F64Proofs.
From Flocq Require Import Core BinarySingleNaN.
Open Scope Z_scope.
#[local] Existing Instance Hprec.
#[local] Existing Instance Hmax.

(** a float64 that is a number, and the number *)
Definition number (f : spec_float) : Prop := valid_binary 53 1024 f = true /\ is_finite_SF f = true.
Notation value f := (SF2R radix2 f).

Lemma number_fval f : number f -> fval f (value f).
Proof.
  intros [V F]. exists (SF2B f V). split; [symmetry; apply B2SF_SF2B|]. split; [rewrite is_finite_SF2B; exact F|rewrite B2R_SF2B; reflexivity].
Qed.
Lemma mul_equiv (x y : b64) : f64_mul (B2SF x) (B2SF y) = B2SF (Bmult mode_NE x y).
Proof.
  case x as [sx|sx| |sx mx ex Bx]; case y as [sy|sy| |sy my ey By]; [now (trivial || simpl; case Bool.eqb).. | ].
  simpl. rewrite B2SF_SF2B. apply binary_round_aux_equiv.
Qed.
Lemma f64_mul_val f g a b : fval f a -> fval g b -> (0 <= a * b <= IZR (2^53))%R -> fval (f64_mul f g) (rnd (a * b)).
Proof.
  intros (x & -> & Fx & <-) (y & -> & Fy & <-) Hr. rewrite mul_equiv.
  pose proof (Bmult_correct 53 1024 Hprec Hmax mode_NE x y) as C.
  change (round radix2 (SpecFloat.fexp 53 1024) (round_mode mode_NE) (B2R x * B2R y)) with (rnd (B2R x * B2R y)) in C.
  rewrite rnd_small in C by assumption. destruct C as (C1 & C2 & _).
  eexists. split; [reflexivity|]. split; [rewrite C2, Fx, Fy; reflexivity|assumption].
Qed.
Lemma f64_to_u64_val other f r : fval f r -> (0 <= r <= IZR (2^53))%R -> f64_to_u64 other f = Zfloor r.
Proof.
  intros (b & -> & Fb & <-) [H0 H1]. destruct b as [s|s| |s m e Hb]; cbn [is_finite] in Fb; try discriminate; cbn [B2SF f64_to_u64].
  - cbn [B2R]. symmetry. apply (Zfloor_IZR 0).
  - assert (s = false).
    { destruct s; [|reflexivity]. exfalso. assert (B2R (B754_finite true m e Hb : b64) < 0)%R; [|lra]. cbn [B2R cond_Zopp]. apply F2R_lt_0. cbn. lia. }
    subst s. assert (T : (if 0 <=? e then Z.pos m * 2^e else Z.pos m / 2^(-e)) = Zfloor (B2R (B754_finite false m e Hb : b64))).
    { cbn [B2R cond_Zopp]. unfold F2R; cbn [Fnum Fexp]. destruct (Z.leb_spec 0 e) as [L|L].
      - rewrite <- (IZR_Zpower radix2) by assumption. rewrite <- mult_IZR. rewrite Zfloor_IZR. reflexivity.
      - replace (bpow radix2 e) with (/ IZR (2^(-e)))%R.
        + symmetry. apply Zfloor_div. assert (0 < 2^(-e)) by (apply Z.pow_pos_nonneg; lia). lia.
        + replace (IZR (2^(-e))) with (bpow radix2 (-e)) by (rewrite <- (IZR_Zpower radix2) by lia; reflexivity).
          rewrite bpow_opp. apply Rinv_inv. }
    cbv zeta. rewrite T. cbn [andb orb]. replace (2^64 <=? Zfloor (B2R (B754_finite false m e Hb : b64))) with false; [reflexivity|]. symmetry. apply Z.leb_gt. apply lt_IZR.
    eapply Rle_lt_trans; [apply Zfloor_lb|]. eapply Rle_lt_trans; [exact H1|]. apply IZR_lt. reflexivity.
Qed.
Lemma wish_floor other f n bs : number f -> (0 <= value f <= 1)%R -> 0 <= n / bs <= 2^53 -> sampleWish other f n bs = Zfloor (rnd (value f * IZR (n / bs))) /\ (0 <= value f * IZR (n / bs) <= IZR (n / bs))%R.
Proof.
  intros Hf [F0 F1] Hn. set (k := n / bs) in *.
  assert (K0 : (0 <= IZR k)%R) by (apply IZR_le; lia). assert (K1 : (IZR k <= IZR (2^53))%R) by (apply IZR_le; lia).
  assert (P0 : (0 <= value f * IZR k)%R) by (apply Rmult_le_pos; assumption). assert (P1 : (value f * IZR k <= IZR k)%R) by (rewrite <- (Rmult_1_l (IZR k)) at 2; apply Rmult_le_compat_r; assumption).
  split; [|split; assumption]. unfold sampleWish. fold k. apply f64_to_u64_val.
  - apply f64_mul_val; [apply number_fval; exact Hf|apply f64_of_Z_val; lia|split; [exact P0|lra]].
  - split; [rewrite <- (rnd_id 0) by apply generic_format_0; apply rnd_le; exact P0|rewrite <- (rnd_id (IZR (2^53))) by (apply fmt_Z; lia); apply rnd_le; lra].
Qed.
(** C102.  For a fraction from 0 to 1, less than one block off, and never more than there are. *)
Theorem C102_wish : forall other fraction devSize bs, number fraction -> (0 <= value fraction <= 1)%R -> 0 <= devSize / bs <= 2^53 ->
  let wish := sampleWish other fraction devSize bs in
  0 <= wish <= devSize / bs /\ (Rabs (IZR wish - value fraction * IZR (devSize / bs)) < 1)%R.
Proof.
  intros other f n bs Hf HF Hn wish. destruct (wish_floor other f n bs Hf HF Hn) as [E [P0 P1]]. unfold wish. rewrite E. clear wish E. set (k := n / bs) in *. set (x := (value f * IZR k)%R) in *.
  assert (R0 : (0 <= rnd x)%R) by (rewrite <- (rnd_id 0) by apply generic_format_0; apply rnd_le; exact P0).
  assert (R1 : (rnd x <= IZR k)%R) by (rewrite <- (rnd_id (IZR k)) by (apply fmt_Z; lia); apply rnd_le; exact P1).
  assert (Fl : (IZR (Zfloor x) <= rnd x)%R).
  { rewrite <- (rnd_id (IZR (Zfloor x))); [apply rnd_le, Zfloor_lb|]. apply fmt_Z. assert (0 <= Zfloor x) by (apply Zfloor_lub; exact P0). assert (Zfloor x <= k) by (apply le_IZR; eapply Rle_trans; [apply Zfloor_lb|exact P1]). lia. }
  assert (Ce : (rnd x <= IZR (Zceil x))%R).
  { rewrite <- (rnd_id (IZR (Zceil x))); [apply rnd_le, Zceil_ub|]. apply fmt_Z. assert (0 <= Zceil x) by (apply le_IZR; eapply Rle_trans; [exact P0|apply Zceil_ub]). assert (Zceil x <= k) by (apply Zceil_glb; exact P1). lia. }
  set (w := Zfloor (rnd x)). assert (W0 : 0 <= w) by (apply Zfloor_lub; exact R0). assert (W1 : w <= k) by (apply le_IZR; eapply Rle_trans; [apply Zfloor_lb|exact R1]). split; [lia|].
  assert (WF : Zfloor x <= w) by (apply Zfloor_lub; exact Fl). assert (WC : w <= Zceil x) by (apply le_IZR; eapply Rle_trans; [apply Zfloor_lb|exact Ce]).
  assert (IZR (Zfloor x) <= IZR w)%R by (apply IZR_le; exact WF). assert (IZR w <= IZR (Zceil x))%R by (apply IZR_le; exact WC).
  pose proof (Zfloor_ub x). assert (CU : (IZR (Zceil x) < x + 1)%R) by (unfold Zceil; rewrite opp_IZR; pose proof (Zfloor_ub (- x)); lra).
  apply Rabs_def1; lra.
Qed.
(** ... exact where the product is a whole number, and more for more *)
Theorem C102_exact : forall other fraction devSize bs k, number fraction -> (0 <= value fraction <= 1)%R -> 0 <= devSize / bs <= 2^53 ->
  (value fraction * IZR (devSize / bs) = IZR k)%R -> sampleWish other fraction devSize bs = k.
Proof.
  intros other f n bs k Hf HF Hn E. destruct (C102_wish other f n bs Hf HF Hn) as [_ H]. rewrite E, <- minus_IZR, <- abs_IZR in H. apply lt_IZR in H. lia.
Qed.
Theorem C102_monotone : forall other f f' n n' bs, number f -> number f' -> (0 <= value f <= value f')%R -> (value f' <= 1)%R -> 0 <= n / bs <= n' / bs -> n' / bs <= 2^53 ->
  sampleWish other f n bs <= sampleWish other f' n' bs.
Proof.
  intros other f f' n n' bs Hf Hf' HF HF' Hn Hn'. destruct (wish_floor other f n bs Hf ltac:(lra) ltac:(lia)) as [-> _]. destruct (wish_floor other f' n' bs Hf' ltac:(lra) ltac:(lia)) as [-> _].
  apply Zfloor_le, rnd_le. apply Rmult_le_compat; [lra|apply IZR_le; lia|lra|apply IZR_le; lia].
Qed.
(** ** the command: the number of samples, and the report, for a fraction *)
Theorem C102_report : forall other fraction fuel rnd ent bs minb maxb mino order D out,
  accepted (zlen D) bs -> room (zlen D) bs -> 126 <= bs -> zlen D / bs <= 2^53 -> draws (zlen D) bs rnd -> number fraction -> (0 <= value fraction <= 1)%R ->
  is_u64 minb -> is_u64 maxb -> (forall h, Permutation (order h) h) -> (forall id, ent id <> SpecFloat.S754_nan) ->
  IdentifyFS fuel rnd ent (zlen D, true) (file_reader D) bs (sampleWish other fraction (zlen D) bs) minb maxb mino order = Ok out ->
  exists rows l wish, out = Some rows /\ (Rabs (IZR wish - value fraction * IZR (zlen D / bs)) < 1)%R /\ zlen l = clamp wish minb maxb /\ NoDup l /\ (forall o, In o l -> inside (zlen D) bs o) /\
    forall id n, (exists e, In e rows /\ e_FSID e = id /\ e_Count e = n) <-> ~ no_id id /\ n = zlen (sampled_leaves D bs id l) /\ 0 < n /\ mino <= n.
Proof.
  intros other f fuel rn ent bs minb maxb mino order D out Ha HR Hb Hn Hd Hf HF Umi Uma HO HE HX. pose proof Ha as ((H1 & H2) & H3 & H4).
  assert (Hk : 0 <= zlen D / bs <= 2^53) by (split; [apply Z.div_pos; lia|exact Hn]). destruct (C102_wish other f (zlen D) bs Hf HF Hk) as [W1 W2]. set (w := sampleWish other f (zlen D) bs) in *.
  destruct (C72_report fuel rn ent bs w minb maxb mino order D out Ha HR Hb Hd ltac:(unfold is_u64; lia) Umi Uma HO HE HX) as (rows & l & E & L1 & L2 & _ & L4 & HC & _).
  exists rows, l, w. split; [exact E|]. split; [exact W2|]. split; [exact L1|]. split; [|split; [intros o Ho; apply (L4 o Ho)|exact HC]].
  clear - L2. induction L2 as [|x l HS IH HF]; constructor; [|exact IH]. intros Hx. rewrite Forall_forall in HF. specialize (HF x Hx). lia.
Qed.
(** with the fraction 1 and a block size that divides 64 KiB, every block of the device is read and counted *)
Definition device_blocks (D : list byte) (bs : Z) : list Z := map (fun k => Z.of_nat k * bs) (seq 0 (Z.to_nat (zlen D / bs))).
Theorem C102_all : forall other fraction fuel rnd ent bs minb maxb mino order D out,
  accepted (zlen D) bs -> room (zlen D) bs -> 126 <= bs -> (bs | 65536) -> zlen D / bs <= 2^53 -> draws (zlen D) bs rnd -> number fraction -> value fraction = 1%R ->
  0 <= minb <= zlen D / bs -> zlen D / bs <= maxb < 2^64 -> (forall h, Permutation (order h) h) -> (forall id, ent id <> SpecFloat.S754_nan) ->
  IdentifyFS fuel rnd ent (zlen D, true) (file_reader D) bs (sampleWish other fraction (zlen D) bs) minb maxb mino order = Ok out ->
  exists rows, out = Some rows /\
    forall id n, (exists e, In e rows /\ e_FSID e = id /\ e_Count e = n) <-> ~ no_id id /\ n = zlen (filter (fun o => leaf_of id (block_at D bs o)) (device_blocks D bs)) /\ 0 < n /\ mino <= n.
Proof.
  intros other f fuel rn ent bs minb maxb mino order D out Ha HR Hb [c Hc] Hn Hd Hf HF Hmi Hma HO HE HX. pose proof Ha as ((H1 & H2) & H3 & H4).
  assert (Hk : 0 <= zlen D / bs <= 2^53) by (split; [apply Z.div_pos; lia|exact Hn]). assert (EW : sampleWish other f (zlen D) bs = zlen D / bs) by (apply C102_exact; [exact Hf|rewrite HF; lra|exact Hk|rewrite HF; lra]).
  rewrite EW in HX. destruct (C72_report fuel rn ent bs (zlen D / bs) minb maxb mino order D out Ha HR Hb Hd ltac:(unfold is_u64; lia) ltac:(unfold is_u64; lia) ltac:(unfold is_u64; lia) HO HE HX) as (rows & l & E & L1 & L2 & _ & L4 & HC & _).
  exists rows. split; [exact E|]. intros id n. rewrite (HC id n). assert (EL : zlen (sampled_leaves D bs id l) = zlen (filter (fun o => leaf_of id (block_at D bs o)) (device_blocks D bs))); [|rewrite EL; reflexivity].
  assert (NDl : NoDup l) by (clear - L2; induction L2 as [|x l HS IH HF]; constructor; [|exact IH]; intros Hx; rewrite Forall_forall in HF; specialize (HF x Hx); lia).
  assert (HA : incl l (device_blocks D bs)).
  { intros o Ho. destruct (L4 o Ho) as [[I1 I2] HK]. assert (HX' : exists b, o = b * bs).
    { destruct HK as [(i & Hi & [->|[->|[(_ & ->)|(_ & ->)]]])|(b & _ & ->)].
      - exists (c + i). rewrite Z.mul_add_distr_r. lia.
      - exists (1024 * c + (i + 100)). replace ((1024 * c + (i + 100)) * bs) with (1024 * (c * bs) + (i + 100) * bs) by ring. rewrite <- Hc. lia.
      - exists (4194304 * c + (i + 200)). replace ((4194304 * c + (i + 200)) * bs) with (4194304 * (c * bs) + (i + 200) * bs) by ring. rewrite <- Hc. lia.
      - exists (4194304 * c + (i + 300)). replace ((4194304 * c + (i + 300)) * bs) with (4194304 * (c * bs) + (i + 300) * bs) by ring. rewrite <- Hc. lia.
      - exists b. reflexivity. }
    destruct HX' as [b ->]. assert (B0 : 0 <= b) by nia. assert (B1 : b < zlen D / bs) by (assert (b + 1 <= zlen D / bs); [apply Z.div_le_lower_bound; nia|lia]).
    apply in_map_iff. exists (Z.to_nat b). split; [rewrite Z2Nat.id by exact B0; reflexivity|apply in_seq; lia]. }
  assert (NDb : NoDup (device_blocks D bs)).
  { unfold device_blocks. apply FinFun.Injective_map_NoDup; [|apply seq_NoDup]. intros x y Exy. nia. }
  assert (LE : length l = length (device_blocks D bs)) by (unfold device_blocks; rewrite map_length, seq_length; unfold clamp in L1; replace (zlen D / bs <? minb) with false in L1 by (symmetry; apply Z.ltb_ge; lia); rewrite Z.min_l in L1 by lia; unfold zlen in *; lia).
  assert (HP : Permutation l (device_blocks D bs)) by (apply NoDup_Permutation_bis; [exact NDl|lia|exact HA]).
  unfold sampled_leaves. clear - HP. induction HP as [|x l l' HP IH|x y l|l l' l'' HP1 IH1 HP2 IH2]; cbn [filter]; [reflexivity| | |congruence].
  - destruct (leaf_of id (block_at D bs x)); [rewrite !zlen_cons, IH; reflexivity|exact IH].
  - destruct (leaf_of id (block_at D bs x)), (leaf_of id (block_at D bs y)); reflexivity.
Qed.
Print Assumptions C102_wish. Print Assumptions C102_exact. Print Assumptions C102_monotone. Print Assumptions C102_report. Print Assumptions C102_all.

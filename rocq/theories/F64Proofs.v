(** The float64 operations of Identify.v, in real arithmetic with rounding
    (through Flocq's IEEE 754 library).  The three equivalence lemmas follow
    Flocq's IEEE754/PrimFloat.v. *)
From Coq Require Import ZArith Reals Lia Lra Floats.SpecFloat.
From Verif Require Import Go Identify.
From Flocq Require Import Core BinarySingleNaN.
Open Scope Z_scope.

Notation b64 := (binary_float 53 1024).
#[local] Instance Hprec : FLX.Prec_gt_0 53 := eq_refl _.
#[local] Instance Hmax : Prec_lt_emax 53 1024 := eq_refl _.
Notation fmt := (generic_format radix2 (SpecFloat.fexp 53 1024)).
Definition rnd (x : R) : R := round radix2 (SpecFloat.fexp 53 1024) (round_mode mode_NE) x.

Lemma round_nearest_even_equiv s m l : round_nearest_even m l = choice_mode mode_NE s m l.
Proof. case l; [reflexivity|intro c]. case c; [|reflexivity..]. now simpl; unfold Round.cond_incr; case Z.even. Qed.
Lemma binary_round_aux_equiv sx mx ex lx :
  SpecFloat.binary_round_aux 53 1024 sx mx ex lx = binary_round_aux 53 1024 mode_NE sx mx ex lx.
Proof.
  unfold SpecFloat.binary_round_aux, binary_round_aux. set (mrse' := shr_fexp _ _ _).
  case mrse'; intros mrs' e'; simpl. now rewrite (round_nearest_even_equiv sx).
Qed.
Lemma binary_round_equiv s m e : SpecFloat.binary_round 53 1024 s m e = binary_round 53 1024 mode_NE s m e.
Proof.
  unfold SpecFloat.binary_round, binary_round, shl_align_fexp.
  set (mez := shl_align _ _ _); case mez as [mz ez]. apply binary_round_aux_equiv.
Qed.
Lemma binary_normalize_equiv m e szero :
  SpecFloat.binary_normalize 53 1024 m e szero = B2SF (binary_normalize 53 1024 Hprec Hmax mode_NE m e szero).
Proof.
  case m as [ | p | p]; [now simpl|simpl; rewrite B2SF_SF2B; apply binary_round_equiv..].
Qed.
Lemma add_equiv (x y : b64) : f64_add (B2SF x) (B2SF y) = B2SF (Bplus mode_NE x y).
Proof.
  case x as [sx|sx| |sx mx ex Bx]; case y as [sy|sy| |sy my ey By];
    [now (trivial || simpl; case Bool.eqb).. | ].
  apply binary_normalize_equiv.
Qed.
Lemma div_equiv (x y : b64) : f64_div (B2SF x) (B2SF y) = B2SF (Bdiv mode_NE x y).
Proof.
  case x as [sx|sx| |sx mx ex Bx]; case y as [sy|sy| |sy my ey By];
    [now (trivial || simpl; case Bool.eqb).. | ].
  simpl. rewrite B2SF_SF2B. set (melz := SFdiv_core_binary _ _ _ _ _ _).
  case melz as [[mz ez] lz]. apply binary_round_aux_equiv.
Qed.

(** [f] is finite with value [r] *)
Definition fval (f : spec_float) (r : R) : Prop := exists b : b64, f = B2SF b /\ is_finite b = true /\ B2R b = r.

Lemma fmt_Z_scaled n e : Z.abs n <= 2^53 -> -1074 <= e <= 0 -> fmt (IZR n * bpow radix2 e)%R.
Proof.
  intros Hn He. destruct (Z.eq_dec (Z.abs n) (2^53)) as [E|E].
  - assert (G : forall k, -1022 <= k <= 53 -> fmt (bpow radix2 k)).
    { intros k Hk. apply generic_format_bpow. unfold SpecFloat.fexp, SpecFloat.emin. lia. }
    assert (EV : (IZR (Z.abs n) = bpow radix2 53)%R).
    { rewrite E. rewrite <- (IZR_Zpower radix2) by lia. reflexivity. }
    assert (G2 : fmt (bpow radix2 (53 + e))).
    { apply generic_format_bpow. unfold SpecFloat.fexp, SpecFloat.emin. lia. }
    rewrite bpow_plus in G2. destruct (Z.abs_eq_or_opp n) as [A|A].
    + rewrite A in EV. rewrite EV. exact G2.
    + replace n with (- Z.abs n) by lia. rewrite opp_IZR, EV. rewrite Ropp_mult_distr_l_reverse. apply generic_format_opp. exact G2.
  - apply generic_format_FLT. exists (Float radix2 n e); cbn [Fnum Fexp]; [reflexivity| |].
    + change (radix2 : Z) with 2. lia.
    + unfold SpecFloat.emin. lia.
Qed.
Lemma fmt_Z n : Z.abs n <= 2^53 -> fmt (IZR n).
Proof. intros Hn. replace (IZR n) with (IZR n * bpow radix2 0)%R by (cbn; ring). apply fmt_Z_scaled; lia. Qed.
Lemma rnd_id x : fmt x -> rnd x = x.
Proof. intros. apply round_generic; auto with typeclass_instances. Qed.
Lemma rnd_le x y : (x <= y)%R -> (rnd x <= rnd y)%R.
Proof. intros. apply round_le; auto with typeclass_instances. apply fexp_correct. reflexivity. Qed.
Lemma rnd_small x : (0 <= x <= IZR (2^53))%R -> Rlt_bool (Rabs (rnd x)) (bpow radix2 1024) = true.
Proof.
  intros [H0 H1]. apply Rlt_bool_true.
  assert (A : (0 <= rnd x)%R) by (rewrite <- (rnd_id 0) by apply generic_format_0; apply rnd_le; assumption).
  assert (B : (rnd x <= IZR (2^53))%R) by (rewrite <- (rnd_id (IZR (2^53))) by (apply fmt_Z; lia); apply rnd_le; assumption).
  rewrite Rabs_pos_eq by assumption. eapply Rle_lt_trans; [exact B|].
  replace (IZR (2^53)) with (bpow radix2 53) by (rewrite <- (IZR_Zpower radix2) by lia; reflexivity). apply bpow_lt. lia.
Qed.

Lemma f64_of_Z_val z : 0 <= z <= 2^53 -> fval (f64_of_Z z) (IZR z).
Proof.
  intros Hz. unfold f64_of_Z. rewrite binary_normalize_equiv.
  pose proof (binary_normalize_correct 53 1024 Hprec Hmax mode_NE z 0 false) as C. cbv zeta in C.
  assert (V : F2R (Float radix2 z 0) = IZR z) by (unfold F2R; cbn; ring).
  rewrite V in C. change (round radix2 (SpecFloat.fexp 53 1024) (round_mode mode_NE) (IZR z)) with (rnd (IZR z)) in C.
  rewrite rnd_small in C by (split; apply IZR_le; lia). destruct C as (C1 & C2 & _).
  eexists. split; [reflexivity|]. split; [assumption|]. rewrite C1. apply rnd_id, fmt_Z. lia.
Qed.
Lemma f64_div_val f g a b : fval f a -> fval g b -> b <> 0%R -> (0 <= a / b <= IZR (2^53))%R -> fval (f64_div f g) (rnd (a / b)).
Proof.
  intros (x & -> & Fx & <-) (y & -> & Fy & <-) Hb Hr. rewrite div_equiv.
  pose proof (Bdiv_correct 53 1024 Hprec Hmax mode_NE x y Hb) as C.
  change (round radix2 (SpecFloat.fexp 53 1024) (round_mode mode_NE) (B2R x / B2R y)) with (rnd (B2R x / B2R y)) in C.
  rewrite rnd_small in C by assumption. destruct C as (C1 & C2 & _).
  eexists. split; [reflexivity|]. split; [congruence|assumption].
Qed.
Lemma f64_add_val f g a b : fval f a -> fval g b -> (0 <= a + b <= IZR (2^53))%R -> fval (f64_add f g) (rnd (a + b)).
Proof.
  intros (x & -> & Fx & <-) (y & -> & Fy & <-) Hr. rewrite add_equiv.
  pose proof (Bplus_correct 53 1024 Hprec Hmax mode_NE x y Fx Fy) as C.
  change (round radix2 (SpecFloat.fexp 53 1024) (round_mode mode_NE) (B2R x + B2R y)) with (rnd (B2R x + B2R y)) in C.
  rewrite rnd_small in C by assumption. destruct C as (C1 & C2 & _).
  eexists. split; [reflexivity|]. split; assumption.
Qed.
Lemma f64_to_u32_val f r : fval f r -> (0 <= r < IZR (2^32))%R -> f64_to_u32 f = Zfloor r.
Proof.
  intros (b & -> & Fb & <-) [H0 H1]. destruct b as [s|s| |s m e Hb]; cbn [is_finite] in Fb; try discriminate; cbn [B2SF f64_to_u32].
  - cbn [B2R]. symmetry. apply (Zfloor_IZR 0).
  - assert (s = false).
    { destruct s; [|reflexivity]. exfalso. assert (B2R (B754_finite true m e Hb : b64) < 0)%R; [|lra]. cbn [B2R cond_Zopp]. apply F2R_lt_0. cbn. lia. }
    subst s. assert (T : (if 0 <=? e then Z.pos m * 2^e else Z.pos m / 2^(-e)) = Zfloor (B2R (B754_finite false m e Hb : b64))).
    { cbn [B2R cond_Zopp]. unfold F2R; cbn [Fnum Fexp]. destruct (Z.leb_spec 0 e) as [L|L].
      - rewrite <- (IZR_Zpower radix2) by assumption. rewrite <- mult_IZR. rewrite Zfloor_IZR. reflexivity.
      - replace (bpow radix2 e) with (/ IZR (2^(-e)))%R.
        + symmetry. apply Zfloor_div. assert (0 < 2^(-e)) by (apply Z.pow_pos_nonneg; lia). lia.
        + replace (IZR (2^(-e))) with (bpow radix2 (-e)) by (rewrite <- (IZR_Zpower radix2) by lia; reflexivity).
          rewrite bpow_opp. apply Rinv_inv. }
    rewrite T. unfold u32. apply Z.mod_small. split.
    + apply Zfloor_lub. assumption.
    + apply lt_IZR. eapply Rle_lt_trans; [apply Zfloor_lb|assumption].
Qed.

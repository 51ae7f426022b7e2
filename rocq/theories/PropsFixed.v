(** C103: the entropy identify prints: how far it may be from the Shannon entropy of the id. *)
From Verif Require Import Go GoProofs ToString PropsText Identify Fixed.
From Coq Require Import Strings.String.
From Coq Require Import ZArith Reals Lia Lra Floats.SpecFloat List Permutation.
From Verif Require Import PropsEntropy F64Proofs PropsFraction.
From Flocq Require Import Core BinarySingleNaN.
Import ListNotations.
Open Scope Z_scope.
#[local] Existing Instance Hprec.
#[local] Existing Instance Hmax.

(** ** %.6f *)
(** what a reader of a text like 3.141593 takes it for, in millionths: digits, a point, six digits *)
Definition millionths (t : list byte) (n : Z) : Prop :=
  exists ip fp, t = ip ++ x2e :: fp /\ ip <> [] /\ List.length fp = 6%nat /\ forallb is_dec_digit (ip ++ fp) = true /\ dec_value (ip ++ fp) = n.

Lemma NE_Z n : ZnearestE (IZR n) = n. Proof. apply Zrnd_IZR. apply valid_rnd_N. Qed.
Lemma NE_le x y : (x <= y)%R -> ZnearestE x <= ZnearestE y. Proof. apply Zrnd_le. apply valid_rnd_N. Qed.
Lemma round_even_nearest num den : 0 < den -> round_even num den = ZnearestE (IZR num / IZR den).
Proof.
  intros Hd. assert (Hd' : (0 < IZR den)%R) by (apply IZR_lt; exact Hd). unfold round_even, Znearest. cbv zeta. rewrite Zfloor_div by lia. set (q := num / den). set (r := num mod den).
  assert (E : num = den * q + r) by (apply Z.div_mod; lia). assert (HR : 0 <= r < den) by (apply Z.mod_pos_bound; lia).
  assert (D : (IZR num / IZR den - IZR q = IZR r / IZR den)%R) by (rewrite E, plus_IZR, mult_IZR; field; lra). rewrite D.
  assert (C : r <> 0 -> Zceil (IZR num / IZR den) = q + 1).
  { intros H0. rewrite Zceil_floor_neq; rewrite Zfloor_div by lia; fold q; [reflexivity|]. intros X. assert (IZR r / IZR den = 0)%R by lra. apply H0. apply eq_IZR. apply (Rmult_eq_reg_r (/ IZR den)); [lra|apply Rinv_neq_0_compat; lra]. }
  assert (S : forall k, Rcompare (IZR r / IZR den) (/ 2) = k -> Z.compare (2 * r) den = k).
  { intros k <-. rewrite <- (Rcompare_mult_r (2 * IZR den)) by lra. replace (IZR r / IZR den * (2 * IZR den))%R with (IZR (2 * r)) by (rewrite mult_IZR; field; lra). replace (/ 2 * (2 * IZR den))%R with (IZR den) by lra. symmetry. apply Rcompare_IZR. }
  destruct (Rcompare _ _) eqn:EC; specialize (S _ eq_refl).
  - apply Z.compare_eq in S. replace (2 * r <? den) with false by (symmetry; apply Z.ltb_ge; lia). replace (den <? 2 * r) with false by (symmetry; apply Z.ltb_ge; lia). rewrite C by lia. destruct (Z.even q); reflexivity.
  - assert (2 * r < den) by exact S. replace (2 * r <? den) with true by (symmetry; apply Z.ltb_lt; lia). reflexivity.
  - assert (den < 2 * r) by (apply Z.compare_gt_iff; exact S). replace (2 * r <? den) with false by (symmetry; apply Z.ltb_ge; lia). replace (den <? 2 * r) with true by (symmetry; apply Z.ltb_lt; lia). rewrite C by lia. reflexivity.
Qed.
(** the number printed for a finite float64, in millionths *)
Definition printed (f : spec_float) : Z := ZnearestE (Rabs (value f) * 1000000).
Lemma finite_printed s m e : (if 0 <=? e then Zpos m * 2^e * 1000000 else round_even (Zpos m * 1000000) (2^(-e))) = printed (S754_finite s m e).
Proof.
  unfold printed. assert (A : Rabs (value (S754_finite s m e)) = (IZR (Zpos m) * bpow radix2 e)%R).
  { cbn [SF2R]. unfold F2R. cbn [Fnum Fexp]. rewrite Rabs_mult. rewrite (Rabs_pos_eq (bpow _ _)) by apply bpow_ge_0. f_equal. rewrite <- abs_IZR. f_equal. destruct s; reflexivity. }
  rewrite A. destruct (Z.leb_spec 0 e) as [L|L].
  - rewrite <- (IZR_Zpower radix2) by assumption. rewrite <- !mult_IZR. change (radix2 : Z) with 2. rewrite NE_Z. reflexivity.
  - rewrite round_even_nearest by (apply Z.pow_pos_nonneg; lia). f_equal. replace (bpow radix2 e) with (/ IZR (2^(-e)))%R.
    + rewrite mult_IZR. unfold Rdiv. ring.
    + replace (IZR (2^(-e))) with (bpow radix2 (-e)) by (rewrite <- (IZR_Zpower radix2) by lia; reflexivity). rewrite bpow_opp. apply Rinv_inv.
Qed.
Lemma printed_pos f : 0 <= printed f.
Proof.
  unfold printed. rewrite <- (NE_Z 0). apply NE_le. apply Rmult_le_pos; [apply Rabs_pos|lra].
Qed.
Lemma digits_spec n : 0 <= n < 10^310 -> digits n <> [] /\ forallb is_dec_digit (digits n) = true /\ dec_value (digits n) = n.
Proof.
  intros H. unfold digits. destruct (dec_loop_spec 310 n []) as (l & E1 & E2); [exact H|lia|]. rewrite E1, app_nil_r. exact E2.
Qed.
Lemma dec_loop_length fuel k : forall n acc, 0 <= n < 10 ^ Z.of_nat (S k) -> (S k <= fuel)%nat -> (List.length (dec_loop fuel n acc) <= S k + List.length acc)%nat.
Proof.
  revert fuel. induction k as [|k IH]; intros fuel n acc Hn Hf.
  - destruct fuel as [|fuel]; [lia|]. cbn [dec_loop]. change (10 ^ Z.of_nat 1) with 10 in Hn. replace (n <? 10) with true by (symmetry; apply Z.ltb_lt; lia). cbn [List.length]. lia.
  - destruct fuel as [|fuel]; [lia|]. cbn [dec_loop]. destruct (n <? 10); [cbn [List.length]; lia|]. assert (Hp : 10 ^ Z.of_nat (S (S k)) = 10 * 10 ^ Z.of_nat (S k)) by (rewrite (Nat2Z.inj_succ (S k)), Z.pow_succ_r; lia).
    eapply Nat.le_trans; [apply IH; [|lia]|cbn [List.length]; lia]. split; [apply Z.div_pos; lia|apply Z.div_lt_upper_bound; lia].
Qed.
Lemma dec_value_zeros k l : dec_value (repeat x30 k ++ l) = dec_value l.
Proof. induction k as [|k IH]; [reflexivity|]. cbn [repeat app]. rewrite dec_value_cons, IH. change (bz x30) with 48. lia. Qed.
Lemma six_spec n : 0 <= n < 1000000 -> List.length (six n) = 6%nat /\ forallb is_dec_digit (six n) = true /\ dec_value (six n) = n.
Proof.
  intros H. assert (HL : (List.length (digits n) <= 6)%nat) by (pose proof (dec_loop_length 310 5 n [] H ltac:(lia)) as L; cbn [List.length] in L; unfold digits; lia).
  assert (B : 10^6 <= 10^310) by (apply Z.pow_le_mono_r; lia). destruct (digits_spec n) as (_ & D2 & D3); [change (10^6) with 1000000 in B; split; [lia|]; eapply Z.lt_le_trans; [apply H|exact B]|]. unfold six. split; [|split].
  - rewrite app_length, repeat_length. lia.
  - rewrite forallb_app, D2, andb_true_r. apply forallb_forall. intros c Hc. apply repeat_spec in Hc as ->. reflexivity.
  - rewrite dec_value_zeros. exact D3.
Qed.
Lemma split_text n : 0 <= n -> n / 1000000 < 10^310 -> millionths (digits (n / 1000000) ++ x2e :: six (n mod 1000000)) n.
Proof.
  intros Hn HB. destruct (digits_spec (n / 1000000)) as (D1 & D2 & D3); [split; [apply Z.div_pos; lia|exact HB]|]. destruct (six_spec (n mod 1000000)) as (S1 & S2 & S3); [apply Z.mod_pos_bound; lia|].
  exists (digits (n / 1000000)), (six (n mod 1000000)). split; [reflexivity|]. split; [exact D1|]. split; [exact S1|]. split; [rewrite forallb_app, D2, S2; reflexivity|].
  unfold dec_value. rewrite fold_left_app. fold (dec_value (digits (n / 1000000))). rewrite D3, dec_value_app, S3. unfold zlen. rewrite S1. change (10 ^ Z.of_nat 6) with 1000000. pose proof (Z.div_mod n 1000000). lia.
Qed.
Lemma number_bound f : number f -> (Rabs (value f) < bpow radix2 1024)%R.
Proof.
  intros H. destruct (number_fval f H) as (b & -> & _ & _). rewrite SF2R_B2SF. apply abs_B2R_lt_emax.
Qed.
(** C103a: the text is that of the millionth nearest to the number, with a minus if its sign is minus *)
Theorem C103_fixed : forall f, number f ->
  exists t n, fixed6 f = (if sign_SF f then [x2d] else []) ++ t /\ millionths t n /\ (Rabs (IZR n / 1000000 - Rabs (value f)) <= / 2000000)%R.
Proof.
  intros f Hf. assert (ER : (Rabs (IZR (printed f) / 1000000 - Rabs (value f)) <= / 2000000)%R).
  { unfold printed. pose proof (Znearest_half (fun x => negb (Z.even x)) (Rabs (value f) * 1000000)) as HZ. set (n := IZR (Znearest _ _)) in *. apply Rabs_le. apply Rabs_le_inv in HZ. lra. }
  destruct f as [s|s| |s m e]; [|destruct Hf; discriminate..|].
  - exists (str "0.000000"%string), 0. split; [reflexivity|]. split.
    + exists [x30], (repeat x30 6). split; [reflexivity|]. split; [discriminate|]. repeat split.
    + cbn [SF2R]. rewrite Rabs_R0. unfold Rdiv. rewrite Rmult_0_l, Rminus_0_r, Rabs_R0. lra.
  - exists (digits (printed (S754_finite s m e) / 1000000) ++ x2e :: six (printed (S754_finite s m e) mod 1000000)), (printed (S754_finite s m e)). split; [|split; [|exact ER]].
    + cbn [fixed6]. rewrite (finite_printed s m e). reflexivity.
    + apply split_text; [apply printed_pos|]. pose proof (number_bound _ Hf) as HB. pose proof (printed_pos (S754_finite s m e)). set (n := printed (S754_finite s m e)) in *.
      assert (n < 2^1024 * 1000000 + 1).
      { apply lt_IZR. rewrite plus_IZR, mult_IZR. replace (IZR (2^1024)) with (bpow radix2 1024) by (rewrite <- (IZR_Zpower radix2) by lia; reflexivity). apply Rabs_le_inv in ER. lra. }
      apply Z.div_lt_upper_bound; [lia|]. eapply Z.lt_le_trans; [eassumption|]. vm_compute. discriminate.
Qed.
(** C103b: a greater number is not printed as a smaller one *)
Theorem C103_order : forall f g t u m n, number f -> number g -> (0 <= value f <= value g)%R ->
  (fixed6 f = t \/ fixed6 f = x2d :: t) -> (fixed6 g = u \/ fixed6 g = x2d :: u) -> millionths t m -> millionths u n -> m <= n.
Proof.
  assert (U : forall t m m', millionths t m -> millionths t m' -> m = m').
  { intros t m m' (a & b & E1 & A1 & A2 & A3 & A4) (c & d & E2 & B1 & B2 & B3 & B4). assert (HL : List.length a = List.length c) by (pose proof (f_equal (@List.length byte) E1) as L1; pose proof (f_equal (@List.length byte) E2) as L2; rewrite app_length in L1, L2; cbn [List.length] in L1, L2; lia).
    rewrite E1 in E2. assert (a = c /\ x2e :: b = x2e :: d) as [-> E]; [|injection E as ->; congruence]. clear -E2 HL. revert c E2 HL. induction a as [|x a IH]; intros [|y c] E HL; cbn [List.length] in HL; try lia; [auto|]. injection E as -> E. destruct (IH c E ltac:(lia)) as [-> ->]. auto. }
  assert (N : forall t n, millionths t n -> ~ exists t', t = x2d :: t').
  { intros t n (a & b & E & A1 & A2 & A3 & A4) (t' & ->). destruct a as [|x a]; [congruence|]. injection E as <- _. discriminate A3. }
  assert (G : forall f t m, number f -> (fixed6 f = t \/ fixed6 f = x2d :: t) -> millionths t m -> m = printed f).
  { intros f t m Hf Ht Hm. assert (X : exists t', (fixed6 f = t' \/ fixed6 f = x2d :: t') /\ millionths t' (printed f)).
    { destruct f as [s|s| |s p e]; [|destruct Hf; discriminate..|].
      - exists (str "0.000000"%string). split; [destruct s; [right|left]; reflexivity|]. exists [x30], (repeat x30 6). split; [reflexivity|]. split; [discriminate|]. split; [reflexivity|]. split; [reflexivity|]. unfold printed. cbn [SF2R]. rewrite Rabs_R0, Rmult_0_l. rewrite (NE_Z 0). reflexivity.
      - destruct (C103_fixed _ Hf) as (t' & n & E & M & _). pose proof E as E'. cbn [fixed6] in E'. rewrite (finite_printed s p e) in E'. cbn [sign_SF] in E'. unfold minus in E'. apply app_inv_head in E'.
        exists t'. split; [rewrite E; cbn [sign_SF]; destruct s; auto|]. rewrite <- E'. apply split_text; [apply printed_pos|].
        pose proof (number_bound _ Hf) as HB. pose proof (printed_pos (S754_finite s p e)). unfold printed in *. pose proof (Znearest_half (fun x => negb (Z.even x)) (Rabs (value (S754_finite s p e)) * 1000000)) as HZ. set (n' := Znearest _ _) in *.
        assert (n' < 2^1024 * 1000000 + 1).
        { apply lt_IZR. rewrite plus_IZR, mult_IZR. replace (IZR (2^1024)) with (bpow radix2 1024) by (rewrite <- (IZR_Zpower radix2) by lia; reflexivity). apply Rabs_le_inv in HZ. lra. }
        apply Z.div_lt_upper_bound; [lia|]. eapply Z.lt_le_trans; [eassumption|]. vm_compute. discriminate. }
    destruct X as (t' & Ht' & HM). assert (t = t') as ->; [|exact (U _ _ _ Hm HM)].
    destruct Ht as [Ht|Ht], Ht' as [Ht'|Ht']; rewrite Ht in Ht'.
    - exact Ht'.
    - exfalso. apply (N t m Hm). exists t'. exact Ht'.
    - exfalso. apply (N t' _ HM). exists t. symmetry. exact Ht'.
    - congruence. }
  intros f g t u m n Hf Hg HV Ht Hu Hm Hn. rewrite (G f t m Hf Ht Hm), (G g u n Hg Hu Hn). unfold printed. apply NE_le. rewrite !Rabs_pos_eq by lra. lra.
Qed.

(** ** the entropy, in float64 *)
(** math.Log2 is off by at most [d] where it is used *)
Definition accurate (log2 : spec_float -> spec_float) (d : R) : Prop :=
  forall x, number x -> (/ 16 <= value x <= 1)%R -> number (log2 x) /\ (Rabs (value (log2 x) - log2R (value x)) <= d)%R.

Lemma fval_number f r : fval f r -> number f /\ value f = r.
Proof.
  intros (b & -> & F & <-). split; [split|apply SF2R_B2SF].
  - apply valid_binary_B2SF.
  - rewrite is_finite_SF_B2SF. exact F.
Qed.
Lemma rnd_opp x : rnd (- x) = (- rnd x)%R.
Proof. unfold rnd. cbn [round_mode]. apply round_NE_opp. Qed.
Lemma rnd_fits x : (Rabs x <= IZR (2^53))%R -> Rlt_bool (Rabs (rnd x)) (bpow radix2 1024) = true.
Proof.
  intros H. destruct (Rle_or_lt 0 x) as [L|L].
  - rewrite Rabs_pos_eq in H by exact L. apply rnd_small. split; assumption.
  - rewrite Rabs_left in H by exact L. rewrite <- (Ropp_involutive x), rnd_opp, Rabs_Ropp. apply rnd_small. lra.
Qed.
Lemma mul_any f g a b : fval f a -> fval g b -> (Rabs (a * b) <= IZR (2^53))%R -> fval (f64_mul f g) (rnd (a * b)).
Proof.
  intros (x & -> & Fx & <-) (y & -> & Fy & <-) Hr. rewrite mul_equiv. pose proof (Bmult_correct 53 1024 Hprec Hmax mode_NE x y) as C.
  change (round radix2 (SpecFloat.fexp 53 1024) (round_mode mode_NE) (B2R x * B2R y)) with (rnd (B2R x * B2R y)) in C.
  rewrite rnd_fits in C by assumption. destruct C as (C1 & C2 & _). eexists. split; [reflexivity|]. split; [rewrite C2, Fx, Fy; reflexivity|assumption].
Qed.
Lemma add_any f g a b : fval f a -> fval g b -> (Rabs (a + b) <= IZR (2^53))%R -> fval (f64_add f g) (rnd (a + b)).
Proof.
  intros (x & -> & Fx & <-) (y & -> & Fy & <-) Hr. rewrite add_equiv. pose proof (Bplus_correct 53 1024 Hprec Hmax mode_NE x y Fx Fy) as C.
  change (round radix2 (SpecFloat.fexp 53 1024) (round_mode mode_NE) (B2R x + B2R y)) with (rnd (B2R x + B2R y)) in C.
  rewrite rnd_fits in C by assumption. destruct C as (C1 & C2 & _). eexists. split; [reflexivity|]. split; assumption.
Qed.
Lemma rnd_error x : (Rabs x <= 8)%R -> (Rabs (rnd x - x) <= bpow radix2 (-50))%R.
Proof.
  intros H. unfold rnd. eapply Rle_trans; [apply error_le_half_ulp; apply fexp_correct; reflexivity|].
  assert (U : (ulp radix2 (SpecFloat.fexp 53 1024) x <= ulp radix2 (SpecFloat.fexp 53 1024) (bpow radix2 3))%R).
  { apply ulp_le; [apply fexp_correct; reflexivity|apply fexp_monotone|]. rewrite (Rabs_pos_eq (bpow radix2 3)) by apply bpow_ge_0. change (bpow radix2 3) with 8%R. exact H. }
  rewrite ulp_bpow in U. change (SpecFloat.fexp 53 1024 (3 + 1)) with (-49) in U. replace (bpow radix2 (-50)) with (/ 2 * bpow radix2 (-49))%R; [lra|].
  change (-49) with (1 + -50). rewrite bpow_plus. change (bpow radix2 1) with 2%R. lra.
Qed.
Lemma log2R_range p : (/ 16 <= p <= 1)%R -> (-4 <= log2R p <= 0)%R.
Proof.
  intros [H0 H1]. pose proof ln2_pos as L2. assert (E : ln (/ 16) = (- (4 * ln 2))%R).
  { rewrite ln_Rinv by lra. f_equal. replace 16%R with (2 * 2 * (2 * 2))%R by lra. rewrite !ln_mult by lra. lra. }
  assert (A : (ln (/ 16) <= ln p)%R) by (destruct (Rle_lt_or_eq_dec _ _ H0) as [L| <-]; [left; apply ln_increasing; lra|lra]). assert (B : (ln p <= 0)%R) by (rewrite <- ln_1; destruct (Rle_lt_or_eq_dec _ _ H1) as [L| ->]; [left; apply ln_increasing; lra|lra]).
  unfold log2R. split.
  - apply Rmult_le_reg_r with (ln 2); [exact L2|]. unfold Rdiv. rewrite Rmult_assoc, Rinv_l by lra. lra.
  - apply Rmult_le_reg_r with (ln 2); [exact L2|]. unfold Rdiv. rewrite Rmult_assoc, Rinv_l by lra. lra.
Qed.
Lemma sixteenth c : 1 <= c <= 16 -> fval (f64_div (f64_of_Z c) (f64_of_Z 16)) (IZR c / 16)%R.
Proof.
  intros Hc. assert (C1 : (1 <= IZR c)%R) by (apply IZR_le; lia). assert (C2 : (IZR c <= 16)%R) by (apply IZR_le; lia).
  assert (V : rnd (IZR c / 16) = (IZR c / 16)%R). { apply rnd_id. replace (IZR c / 16)%R with (IZR c * bpow radix2 (-4))%R by (change (bpow radix2 (-4)) with (/ 16)%R; lra). apply fmt_Z_scaled; lia. }
  rewrite <- V. apply f64_div_val; [apply f64_of_Z_val; lia|apply f64_of_Z_val; lia|lra|]. split; [lra|]. apply Rle_trans with 1%R; [lra|apply IZR_le; lia].
Qed.
Definition term (c : Z) : R := (IZR c / 16 * log2R (IZR c / 16))%R.
Lemma sum_error log2 d : accurate log2 d -> (0 <= d <= / 2)%R -> forall cs e r, Forall (fun c => 1 <= c <= 16) cs -> fval e r ->
  (Rabs r + rsum (map (fun c => IZR c / 16 * 5 + bpow radix2 (-40)) cs) <= 7)%R ->
  exists r', fval (entropy_sum log2 (f64_of_Z 16) cs e) r' /\ (Rabs (r' - (r + rsum (map term cs))) <= d * rsum (map (fun c => IZR c / 16) cs) + INR (List.length cs) * bpow radix2 (-49))%R.
Proof.
  intros HA Hd cs. assert (B53 : (8 <= IZR (2^53))%R) by (apply IZR_le; lia). assert (T49 : (bpow radix2 (-49) = 2 * bpow radix2 (-50))%R) by (change (-49) with (1 + -50); rewrite bpow_plus; change (bpow radix2 1) with 2%R; lra).
  assert (T40 : (2 * bpow radix2 (-50) <= bpow radix2 (-40))%R) by (rewrite <- T49; apply bpow_le; lia). assert (T0 : (0 < bpow radix2 (-50) <= / 16)%R) by (split; [apply bpow_gt_0|replace (/ 16)%R with (bpow radix2 (-4)) by (change (bpow radix2 (-4)) with (/ 16)%R; lra); apply bpow_le; lia]).
  induction cs as [|c cs IH]; intros e r HC He HB.
  - exists r. split; [exact He|]. cbn [map rsum fold_right List.length]. rewrite Rplus_0_r, Rminus_diag_eq by reflexivity. rewrite Rabs_R0. change (INR 0) with 0%R. lra.
  - inversion HC as [|? ? Hc HC']; subst. cbn [entropy_sum]. pose proof (sixteenth c Hc) as Hp. set (f := f64_div (f64_of_Z c) (f64_of_Z 16)) in *. set (p := (IZR c / 16)%R) in *.
    assert (Pp : (/ 16 <= p <= 1)%R) by (unfold p; assert (1 <= IZR c)%R by (apply IZR_le; lia); assert (IZR c <= 16)%R by (apply IZR_le; lia); lra).
    destruct (fval_number _ _ Hp) as [N1 V1]. destruct (HA f N1 ltac:(rewrite V1; exact Pp)) as [N2 V2]. rewrite V1 in V2. pose proof (number_fval _ N2) as HL. set (L := value (log2 f)) in *. pose proof (log2R_range p Pp) as RL.
    assert (BL : (Rabs L <= 9 / 2)%R) by (apply Rabs_le; apply Rabs_le_inv in V2; lra).
    assert (BX : (Rabs (p * L) <= p * (9 / 2))%R) by (rewrite Rabs_mult, (Rabs_pos_eq p) by lra; apply Rmult_le_compat_l; lra).
    assert (HX : fval (f64_mul f (log2 f)) (rnd (p * L))) by (apply mul_any; [exact Hp|exact HL|lra]).
    pose proof (rnd_error (p * L) ltac:(lra)) as EX. set (x := rnd (p * L)) in *.
    assert (REM : (0 <= rsum (map (fun c => IZR c / 16 * 5 + bpow radix2 (-40)) cs))%R).
    { clear -HC' T0 T40. induction HC' as [|c cs Hc HC IH]; cbn [map rsum fold_right]; [lra|]. unfold rsum in IH. assert (1 <= IZR c)%R by (apply IZR_le; lia). lra. }
    cbn [map rsum fold_right] in HB. fold (rsum (map (fun c => IZR c / 16 * 5 + bpow radix2 (-40))%R cs)) in HB. fold p in HB. set (S := rsum _) in *.
    assert (BXX : (Rabs x <= p * (9 / 2) + bpow radix2 (-50))%R) by (replace x with (x - p * L + p * L)%R by ring; eapply Rle_trans; [apply Rabs_triang|lra]).
    assert (BS : (Rabs (r + x) <= 8)%R) by (eapply Rle_trans; [apply Rabs_triang|lra]).
    assert (HS : fval (f64_add e (f64_mul f (log2 f))) (rnd (r + x))) by (apply add_any; [exact He|exact HX|lra]).
    pose proof (rnd_error (r + x) BS) as ES. set (r1 := rnd (r + x)) in *.
    assert (BR : (Rabs r1 <= Rabs r + Rabs x + bpow radix2 (-50))%R) by (replace r1 with (r1 - (r + x) + (r + x))%R by ring; pose proof (Rabs_triang r x); eapply Rle_trans; [apply Rabs_triang|lra]).
    destruct (IH _ r1 HC' HS ltac:(fold S; lra)) as (r' & R1 & R2). exists r'. split; [exact R1|].
    cbn [map rsum fold_right List.length]. fold (rsum (map term cs)). fold (rsum (map (fun c => IZR c / 16)%R cs)). unfold term at 1. fold p. rewrite S_INR. set (T := rsum (map term cs)) in *. set (Q := rsum (map (fun c => IZR c / 16)%R cs)) in *.
    assert (EL : (Rabs (p * L - p * log2R p) <= p * d)%R) by (replace (p * L - p * log2R p)%R with (p * (L - log2R p))%R by ring; rewrite Rabs_mult, (Rabs_pos_eq p) by lra; apply Rmult_le_compat_l; lra).
    apply Rabs_le_inv in EL, EX, ES, R2. apply Rabs_le. rewrite Rmult_plus_distr_l, Rmult_plus_distr_r. lra.
Qed.
Lemma opp_fval f r : fval f r -> fval (SFopp f) (- r)%R.
Proof.
  intros (b & -> & F & <-). exists (Bopp b). split; [destruct b; reflexivity|]. split; [rewrite is_finite_Bopp; exact F|apply B2R_Bopp].
Qed.
Lemma counts_of id : List.length id = 16%nat -> (forall cs, Permutation cs (byte_counts id) ->
  Forall (fun c => 1 <= c <= 16) cs /\ rsum (map (fun c => IZR c / 16)%R cs) = 1%R /\ (List.length cs <= 16)%nat).
Proof.
  intros HL cs HP. split; [|split].
  - apply Forall_forall. intros c Hc. apply (Permutation_in c HP) in Hc. rewrite byte_counts_eq in Hc. apply in_map_iff in Hc as (x & <- & Hx). apply nodup_In in Hx. apply (count_occ_In Byte.byte_eq_dec) in Hx. pose proof (count_occ_bound Byte.byte_eq_dec x id). lia.
  - rewrite (rsum_perm _ _ (Permutation_map _ HP)), byte_counts_eq, map_map. rewrite <- (share_sum id) by (destruct id; [discriminate HL|discriminate]). apply rsum_ext. intros x _. unfold share. rewrite HL. reflexivity.
  - rewrite (Permutation_length HP), byte_counts_eq, map_length. rewrite <- HL. apply NoDup_incl_length; [apply NoDup_nodup|]. intros x Hx. apply nodup_In in Hx. exact Hx.
Qed.
(** C103c: for an id, whatever the order in which its bytes are counted and added up, the entropy computed is a number
    next to the entropy of the id *)
Theorem C103_entropy : forall log2 d id v, accurate log2 d -> (0 <= d <= / 2)%R -> List.length id = 16%nat -> ShannonEntropy_result log2 id v ->
  number v /\ (Rabs (value v - H id) <= d + bpow radix2 (-45))%R.
Proof.
  intros log2 d id v HA Hd HL (cs & HP & ->). destruct (counts_of id HL cs HP) as (C1 & C2 & C3). unfold ShannonEntropy_f64. assert (Z16 : zlen id = 16) by (unfold zlen; rewrite HL; reflexivity). rewrite Z16.
  assert (T49 : (0 < bpow radix2 (-49))%R) by apply bpow_gt_0. assert (T45 : (bpow radix2 (-45) = 16 * bpow radix2 (-49))%R) by (change (-45) with (4 + -49); rewrite bpow_plus; change (bpow radix2 4) with 16%R; lra).
  assert (N : (INR (List.length cs) <= 16)%R) by (replace 16%R with (INR 16) by (cbn; lra); apply le_INR; exact C3).
  destruct (sum_error log2 d HA Hd cs (S754_zero false) 0%R C1) as (r & R1 & R2).
  - exists (B754_zero false). repeat split.
  - rewrite Rabs_R0, Rplus_0_l. assert (SP : forall l, rsum (map (fun c => IZR c / 16 * 5 + bpow radix2 (-40))%R l) = (rsum (map (fun c => IZR c / 16)%R l) * 5 + INR (List.length l) * bpow radix2 (-40))%R).
    { induction l as [|c l IH]; [cbn [map rsum fold_right List.length]; change (INR 0) with 0%R; lra|]. cbn [map rsum fold_right List.length]. unfold rsum in IH. rewrite IH, S_INR. ring. }
    rewrite SP, C2. assert (bpow radix2 (-40) <= / 16)%R by (replace (/ 16)%R with (bpow radix2 (-4)) by (change (bpow radix2 (-4)) with (/ 16)%R; lra); apply bpow_le; lia). assert (0 <= INR (List.length cs))%R by apply pos_INR. assert (0 < bpow radix2 (-40))%R by apply bpow_gt_0.
    assert (INR (List.length cs) * bpow radix2 (-40) <= 16 * / 16)%R by (apply Rmult_le_compat; lra). lra.
  - destruct (fval_number _ _ (opp_fval _ _ R1)) as [N1 V1]. split; [exact N1|]. rewrite V1. assert (EH : H id = (- rsum (map term cs))%R).
    { symmetry. apply result_H. exists cs. split; [exact HP|]. unfold ShannonEntropyR. rewrite entropy_sumR_eq, Rplus_0_l, Z16. reflexivity. }
    rewrite EH. rewrite C2, Rplus_0_l in R2. replace (- r - - rsum (map term cs))%R with (- (r - rsum (map term cs)))%R by ring. rewrite Rabs_Ropp. eapply Rle_trans; [exact R2|]. rewrite T45. assert (INR (List.length cs) * bpow radix2 (-49) <= 16 * bpow radix2 (-49))%R by (apply Rmult_le_compat_r; lra). lra.
Qed.
(** C103d: the text printed for an id *)
Theorem C103_printed : forall log2 d id v, accurate log2 d -> (0 <= d <= / 2)%R -> List.length id = 16%nat -> ShannonEntropy_result log2 id v ->
  exists t n, (fixed6 v = t \/ fixed6 v = x2d :: t) /\ millionths t n /\ (Rabs (IZR n / 1000000 - H id) <= / 2000000 + d + bpow radix2 (-45))%R.
Proof.
  intros log2 d id v HA Hd HL HV. destruct (C103_entropy log2 d id v HA Hd HL HV) as [Hn He]. destruct (C103_fixed v Hn) as (t & n & E & M & B). exists t, n. split; [rewrite E; destruct (sign_SF v); auto|]. split; [exact M|].
  assert (H0 : (0 <= H id)%R) by (apply (C44_entropy id); destruct id; [discriminate HL|discriminate]).
  assert (X : (Rabs (Rabs (value v) - H id) <= Rabs (value v - H id))%R).
  { rewrite <- (Rabs_pos_eq (H id)) at 1 by exact H0. apply Rabs_triang_inv2. }
  replace (IZR n / 1000000 - H id)%R with ((IZR n / 1000000 - Rabs (value v)) + (Rabs (value v) - H id))%R by ring. eapply Rle_trans; [apply Rabs_triang|lra].
Qed.
(** a minus is printed for an id whose bytes are all the same (0 is printed as -0.000000), and for no other *)
Theorem C103_minus : forall log2 d id v, accurate log2 d -> (0 <= d <= / 1024)%R -> log2 (f64_of_Z 1) = S754_zero false -> List.length id = 16%nat -> ShannonEntropy_result log2 id v ->
  ((exists x, id = repeat x 16) -> fixed6 v = str "-0.000000"%string) /\ ((exists t, fixed6 v = x2d :: t) -> exists x, id = repeat x 16).
Proof.
  intros log2 d id v HA Hd H1 HL HV. split.
  - intros [x ->]. destruct HV as (cs & HP & ->). assert (EC : byte_counts (repeat x 16) = [16]) by (destruct x; vm_compute; reflexivity).
    rewrite EC in HP. apply Permutation_sym, Permutation_length_1_inv in HP. subst cs. unfold ShannonEntropy_f64. cbn [entropy_sum]. change (zlen (repeat x 16)) with 16. assert (EQ : f64_div (f64_of_Z 16) (f64_of_Z 16) = f64_of_Z 1) by (vm_compute; reflexivity). rewrite EQ, H1. vm_compute. reflexivity.
  - intros (t & Ht). destruct (C103_entropy log2 d id v HA ltac:(lra) HL HV) as [Hn He].
    assert (HS : sign_SF v = true).
    { destruct (C103_fixed v Hn) as (u & n & E & (ip & fp & -> & A1 & A2 & A3 & _) & _). destruct (sign_SF v); [reflexivity|]. cbn [app] in E. destruct ip as [|y ip]; [congruence|]. rewrite Ht in E. cbn [app] in E. assert (x2d = y) by congruence. subst y. discriminate A3. }
    assert (V0 : (value v <= 0)%R). { destruct v as [s|s| |s m e]; [cbn [SF2R]; lra|destruct Hn; discriminate|destruct Hn; discriminate|]. cbn [sign_SF] in HS. subst s. cbn [SF2R]. left. apply F2R_lt_0. reflexivity. }
    assert (T45 : (bpow radix2 (-45) <= / 1024)%R) by (replace (/ 1024)%R with (bpow radix2 (-10)) by (change (bpow radix2 (-10)) with (/ 1024)%R; lra); apply bpow_le; lia).
    apply Rabs_le_inv in He. assert (HH : (H id <= / 512)%R) by lra. clear - HL HH.
    (* some byte's share is from 1/16 to 15/16 if there are two *)
    destruct (in_dec Byte.byte_eq_dec (hd x00 id) id) as [HI|HI]; [|exfalso; apply HI; destruct id; [discriminate HL|left; reflexivity]]. set (x := hd x00 id) in *. exists x.
    destruct (Nat.eq_dec (count_occ Byte.byte_eq_dec id x) 16) as [E|E].
    + rewrite <- HL. apply Forall_eq_repeat. apply Forall_forall. intros y Hy. destruct (Byte.byte_eq_dec y x) as [->|NE]; [reflexivity|]. exfalso.
      assert (G : forall l z, In z l -> z <> x -> (count_occ Byte.byte_eq_dec l x < List.length l)%nat).
      { clear. induction l as [|w l IH]; intros z Hz Hn; [destruct Hz|]; destruct Hz as [->|Hz]; cbn [count_occ List.length]; pose proof (count_occ_bound Byte.byte_eq_dec x l).
        - destruct (Byte.byte_eq_dec z x); [congruence|lia].
        - pose proof (IH z Hz Hn). destruct (Byte.byte_eq_dec w x); lia. }
      pose proof (G id y Hy NE). lia.
    + exfalso. rewrite H_nodup in HH. assert (B : (share id x * log2R (/ share id x) <= rsum (map (fun y => share id y * log2R (/ share id y)) (nodup Byte.byte_eq_dec id)))%R).
      { assert (HX : In x (nodup Byte.byte_eq_dec id)) by (apply nodup_In; exact HI). assert (HP : forall y, In y (nodup Byte.byte_eq_dec id) -> (0 <= share id y * log2R (/ share id y))%R).
        { intros y Hy. apply nodup_In, share_range in Hy. apply Rmult_le_pos; [lra|]. apply log2R_nonneg, inv_ge1. exact Hy. }
        revert HX HP. generalize (nodup Byte.byte_eq_dec id). clear. induction l as [|y l IH]; intros HX HP; [destruct HX|]; destruct HX as [->|HX]; cbn [map rsum fold_right].
        - assert (0 <= rsum (map (fun y => share id y * log2R (/ share id y)) l))%R; [|unfold rsum in *; lra]. assert (HP' : forall y, In y l -> (0 <= share id y * log2R (/ share id y))%R) by (intros y Hy; apply HP; right; exact Hy). clear -HP'. induction l as [|y l IH]; cbn [map rsum fold_right]; [lra|]. pose proof (HP' y (or_introl eq_refl)). assert (0 <= rsum (map (fun y => share id y * log2R (/ share id y)) l))%R by (apply IH; intros z Hz; apply HP'; right; exact Hz). unfold rsum in *. lra.
        - specialize (IH HX (fun z Hz => HP z (or_intror Hz))). pose proof (HP y (or_introl eq_refl)). unfold rsum in *. lra. }
      assert (HC : (1 <= count_occ Byte.byte_eq_dec id x <= 15)%nat) by (apply (count_occ_In Byte.byte_eq_dec) in HI; pose proof (count_occ_bound Byte.byte_eq_dec x id); lia).
      assert (SR : (/ 16 <= share id x <= 15 / 16)%R). { unfold share. rewrite HL. assert (1 <= IZR (Z.of_nat (count_occ Byte.byte_eq_dec id x)) <= 15)%R by (split; apply IZR_le; lia). change (IZR (Z.of_nat 16)) with 16%R. lra. }
      set (p := share id x) in *. assert (LB : (/ 16 <= log2R (/ p))%R).
      { unfold log2R. rewrite ln_Rinv by lra. pose proof (ln_le_sub1 p ltac:(lra)) as L. pose proof ln2_pos as P2. pose proof (ln_le_sub1 2 ltac:(lra)) as U2. apply Rmult_le_reg_r with (ln 2); [exact P2|]. unfold Rdiv. rewrite Rmult_assoc, Rinv_l by lra. lra. }
      assert (/ 16 * / 16 <= p * log2R (/ p))%R by (apply Rmult_le_compat; lra). lra.
Qed.
Print Assumptions C103_fixed. Print Assumptions C103_order. Print Assumptions C103_entropy. Print Assumptions C103_printed. Print Assumptions C103_minus.
(** ** C102: a negative fraction that asks for less than half a block asks for none *)
Theorem C102_tiny : forall other f n bs, number f -> 0 <= n / bs <= 2^53 -> (- / 2 <= value f * IZR (n / bs) <= 0)%R -> Fraction.sampleWish other f n bs = 0.
Proof.
  intros other f n bs Hf Hn Hx. unfold Fraction.sampleWish. set (k := n / bs) in *. set (x := (value f * IZR k)%R) in *.
  assert (HM : fval (f64_mul f (f64_of_Z k)) (rnd x)). { apply mul_any; [apply number_fval; exact Hf|apply f64_of_Z_val; lia|]. apply Rle_trans with 1%R; [apply Rabs_le; fold x; lra|apply IZR_le; lia]. }
  assert (R1 : (rnd x <= 0)%R) by (rewrite <- (rnd_id 0) by apply generic_format_0; apply rnd_le; lra).
  assert (R2 : (- / 2 <= rnd x)%R). { rewrite <- (rnd_id (- / 2)); [apply rnd_le; lra|]. replace (- / 2)%R with (IZR (-1) * bpow radix2 (-1))%R by (change (bpow radix2 (-1)) with (/ 2)%R; lra). apply fmt_Z_scaled; lia. }
  destruct HM as (b & -> & Fb & E). rewrite <- E in R1, R2. clear -Fb R1 R2. destruct b as [s|s| |s m e Hb]; cbn [is_finite] in Fb; try discriminate; cbn [B2SF Fraction.f64_to_u64]; [reflexivity|].
  assert (T : (if 0 <=? e then Z.pos m * 2^e else Z.pos m / 2^(-e)) = 0).
  { cbn [B2R] in *. assert (A : (IZR (Z.pos m) * bpow radix2 e <= / 2)%R). { unfold F2R in R1, R2. cbn [Fnum Fexp] in R1, R2. pose proof (bpow_gt_0 radix2 e). destruct s; cbn [cond_Zopp] in *; [change (Z.neg m) with (- Z.pos m) in *; rewrite opp_IZR in *; lra|assert (0 < IZR (Z.pos m))%R by (apply IZR_lt; lia); nra]. }
    destruct (Z.leb_spec 0 e) as [L|L].
    - exfalso. assert (1 <= bpow radix2 e)%R by (change 1%R with (bpow radix2 0); apply bpow_le; lia). assert (1 <= IZR (Z.pos m))%R by (apply IZR_le; lia). nra.
    - apply Z.div_small. split; [lia|]. apply lt_IZR. replace (IZR (2^(-e))) with (bpow radix2 (-e)) by (rewrite <- (IZR_Zpower radix2) by lia; reflexivity). rewrite bpow_opp. pose proof (bpow_gt_0 radix2 e) as HP. apply Rmult_lt_reg_r with (bpow radix2 e); [exact HP|]. rewrite Rinv_l by lra. lra. }
  cbv zeta. rewrite T. destruct s; reflexivity.
Qed.
Print Assumptions C102_tiny.

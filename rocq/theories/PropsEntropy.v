(** Property theorem C44: Shannon entropy, in exact arithmetic. *)
From Coq Require Import ZArith Reals Lia Lra Permutation.
From Verif Require Import Go GoProofs Identify.
From Coq Require Import List.
Import ListNotations.

(** ** the code over the reals
    entropy.go:12-27 with float64 replaced by exact reals and math.Log2 by the real
    binary logarithm; the histogram is summed in any order [cs] *)
Definition log2R (x : R) : R := (ln x / ln 2)%R.
Fixpoint entropy_sumR (l : R) (cs : list Z) (e : R) : R :=
  match cs with
  | [] => e
  | c :: r => let v := (IZR c / l)%R in entropy_sumR l r (e + v * log2R v)%R
  end.
Definition ShannonEntropyR (l : Z) (cs : list Z) : R := (- entropy_sumR (IZR l) cs 0)%R.
(** [v] is a result of ShannonEntropy on [b]: for some map iteration order *)
Definition entropyR_result (b : list byte) (v : R) : Prop :=
  exists cs, Permutation cs (byte_counts b) /\ v = ShannonEntropyR (zlen b) cs.

(** ** specification: H(b) = sum over the byte values x of p(x) * log2(1/p(x)), where
    p(x) is the share of x in b; terms with p(x) = 0 vanish *)
Definition all_bytes : list byte := map zb (map Z.of_nat (seq 0 256)).
Definition share (b : list byte) (x : byte) : R := (IZR (Z.of_nat (count_occ Byte.byte_eq_dec b x)) / IZR (Z.of_nat (length b)))%R.
Definition rsum (l : list R) : R := fold_right Rplus 0%R l.
Definition H (b : list byte) : R :=
  rsum (map (fun x => if Req_EM_T (share b x) 0 then 0%R else (share b x * log2R (/ share b x))%R) all_bytes).
(** the number of different bytes *)
Definition distinct (b : list byte) : Z := zlen (nodup Byte.byte_eq_dec b).

Open Scope R_scope.
Lemma ln2_pos : 0 < ln 2. Proof. rewrite <- ln_1. apply ln_increasing; lra. Qed.
Lemma entropy_sumR_eq l cs : forall e, entropy_sumR l cs e = e + rsum (map (fun c => IZR c / l * log2R (IZR c / l)) cs).
Proof. induction cs as [|c r IH]; intros e; cbn [entropy_sumR map rsum fold_right]; [lra|]. rewrite IH. fold (rsum (map (fun c => IZR c / l * log2R (IZR c / l)) r)). lra. Qed.
Lemma rsum_perm a b : Permutation a b -> rsum a = rsum b.
Proof. unfold rsum. induction 1; cbn [fold_right]; [reflexivity|lra|lra|congruence]. Qed.
Lemma rsum_app a b : rsum (a ++ b) = rsum a + rsum b.
Proof. unfold rsum. induction a as [|x a IH]; cbn [app fold_right]; [lra|]. rewrite IH. lra. Qed.
Lemma rsum_opp {A} (f : A -> R) l : - rsum (map f l) = rsum (map (fun x => - f x) l).
Proof. unfold rsum. induction l as [|x l IH]; cbn [map fold_right]; [lra|]. lra. Qed.
Lemma rsum_ext {A} (f g : A -> R) l : (forall x, In x l -> f x = g x) -> rsum (map f l) = rsum (map g l).
Proof. unfold rsum. induction l as [|x l IH]; intros E; cbn [map fold_right]; [reflexivity|]. rewrite E, IH; [reflexivity|intros; apply E; right; assumption|left; reflexivity]. Qed.
Lemma rsum_le {A} (f g : A -> R) l : (forall x, In x l -> f x <= g x) -> rsum (map f l) <= rsum (map g l).
Proof. unfold rsum. induction l as [|x l IH]; intros E; cbn [map fold_right]; [lra|]. assert (f x <= g x) by (apply E; left; reflexivity). assert (fold_right Rplus 0 (map f l) <= fold_right Rplus 0 (map g l)) by (apply IH; intros; apply E; right; assumption). lra. Qed.
Lemma rsum_scal {A} (f : A -> R) k l : rsum (map (fun x => f x * k) l) = rsum (map f l) * k.
Proof. unfold rsum. induction l as [|x l IH]; cbn [map fold_right]; [lra|]. lra. Qed.
Lemma rsum_const {A} (k : R) (l : list A) : rsum (map (fun _ => k) l) = INR (length l) * k.
Proof. unfold rsum. induction l as [|x l IH]; [cbn [map fold_right length]; change (INR 0) with 0; lra|]. cbn [map fold_right length]. rewrite S_INR. lra. Qed.
Lemma rsum_filter {A} (p : A -> bool) (f : A -> R) l : (forall x, In x l -> p x = false -> f x = 0) -> rsum (map f (filter p l)) = rsum (map f l).
Proof.
  induction l as [|x l IH]; intros E; cbn [filter]; [reflexivity|].
  assert (IH' := IH (fun y Hy => E y (or_intror Hy))). specialize (E x (or_introl eq_refl)).
  destruct (p x); cbn [map rsum fold_right]; unfold rsum in *; [lra|]. rewrite E by reflexivity. lra.
Qed.

(** ** counts of the occurring bytes *)
Notation dd := Byte.byte_eq_dec.
Lemma byte_counts_eq b : byte_counts b = map (fun x => Z.of_nat (count_occ dd b x)) (nodup dd b).
Proof.
  unfold byte_counts. apply map_ext. intros x. unfold zlen. f_equal. induction b as [|y b IH]; cbn; [reflexivity|].
  destruct (dd y x) as [->|N].
  - replace (beqb x x) with true by (symmetry; apply beqb_eq; reflexivity). cbn. rewrite IH. reflexivity.
  - replace (beqb x y) with false; [exact IH|]. symmetry. destruct (beqb x y) eqn:E; [|reflexivity]. apply beqb_eq in E. congruence.
Qed.
Lemma all_bytes_perm b : Permutation (nodup dd b) (filter (fun x => if in_dec dd x b then true else false) all_bytes).
Proof.
  apply NoDup_Permutation; [apply NoDup_nodup| |].
  - apply NoDup_filter. apply (NoDup_map_inv bz). replace (map bz all_bytes) with (map Z.of_nat (seq 0 256)) by (vm_compute; reflexivity).
    apply FinFun.Injective_map_NoDup; [intros i j; lia|apply seq_NoDup].
  - intros x. rewrite nodup_In, filter_In. assert (In x all_bytes).
    { unfold all_bytes. rewrite map_map. apply in_map_iff. exists (Z.to_nat (bz x)). pose proof (bz_range x). split; [rewrite Z2Nat.id by lia; apply zb_bz|apply in_seq; lia]. }
    destruct (in_dec dd x b); intuition discriminate.
Qed.
Lemma share_range b x : In x b -> 0 < share b x <= 1.
Proof.
  intros Hx. unfold share. assert (C : (0 < count_occ dd b x)%nat) by (apply count_occ_In; assumption).
  assert (L : (count_occ dd b x <= length b)%nat) by apply count_occ_bound. rewrite <- !INR_IZR_INZ.
  assert (0 < INR (count_occ dd b x)) by (apply lt_0_INR; assumption). apply le_INR in L.
  split; [apply Rdiv_lt_0_compat; lra|]. apply Rmult_le_reg_r with (INR (length b)); [lra|]. unfold Rdiv. rewrite Rmult_assoc, Rinv_l by lra. lra.
Qed.
Lemma share_zero b x : ~ In x b -> share b x = 0.
Proof. intros Hx. unfold share. apply (count_occ_not_In dd) in Hx. rewrite Hx. cbn. unfold Rdiv. apply Rmult_0_l. Qed.
Lemma share_sum b : b <> [] -> rsum (map (share b) (nodup dd b)) = 1.
Proof.
  intros Hb. assert (L : 0 < INR (length b)) by (apply lt_0_INR; destruct b; [congruence|cbn; lia]).
  unfold share. rewrite (rsum_ext _ (fun x => INR (count_occ dd b x) * / INR (length b))) by (intros; rewrite <- !INR_IZR_INZ; reflexivity).
  rewrite rsum_scal. assert (E : rsum (map (fun x => INR (count_occ dd b x)) (nodup dd b)) = INR (length b)); [|rewrite E; apply Rinv_r; lra].
  assert (G : forall (s : list byte), NoDup s -> (forall x, In x b -> In x s) -> rsum (map (fun x => INR (count_occ dd b x)) s) = INR (length b)); [|apply G; [apply NoDup_nodup|intros; apply nodup_In; assumption]].
  clear L Hb. induction b as [|y b IH]; intros s D I.
  - cbn [count_occ length INR]. rewrite rsum_const. ring.
  - cbn [length]. rewrite S_INR. rewrite <- (IH s D) by (intros; apply I; right; assumption).
    assert (Hy : In y s) by (apply I; left; reflexivity). clear I IH. induction s as [|x s IHs]; [destruct Hy|].
    inversion D as [|? ? N D']; subst. cbn [map rsum fold_right]. destruct (dd y x) as [->|Nx].
    + rewrite count_occ_cons_eq by reflexivity. rewrite S_INR.
      assert (E : rsum (map (fun z => INR (count_occ dd (x :: b) z)) s) = rsum (map (fun z => INR (count_occ dd b z)) s)).
      { apply rsum_ext. intros z Hz. rewrite count_occ_cons_neq by (intros ->; contradiction). reflexivity. }
      unfold rsum in E. lra.
    + rewrite count_occ_cons_neq by assumption. destruct Hy as [->|Hy]; [congruence|]. specialize (IHs D' Hy). unfold rsum in IHs. lra.
Qed.

(** every result of the code is H *)
Lemma result_H b v : entropyR_result b v -> v = H b.
Proof.
  intros (cs & P & ->). unfold ShannonEntropyR. rewrite entropy_sumR_eq, Rplus_0_l.
  rewrite (rsum_perm _ _ (Permutation_map _ P)). rewrite rsum_opp, byte_counts_eq, map_map.
  transitivity (rsum (map (fun x => share b x * log2R (/ share b x)) (nodup dd b))).
  - apply rsum_ext. intros x Hx. apply nodup_In in Hx. change (IZR (Z.of_nat (count_occ dd b x)) / IZR (zlen b)) with (share b x).
    apply share_range in Hx. unfold log2R. rewrite ln_Rinv by lra. pose proof ln2_pos. field. lra.
  - unfold H. rewrite (rsum_perm _ _ (Permutation_map _ (all_bytes_perm b))).
    rewrite <- (rsum_filter (fun x => if in_dec dd x b then true else false) (fun x => if Req_EM_T (share b x) 0 then 0 else share b x * log2R (/ share b x))).
    + apply rsum_ext. intros x Hx. apply filter_In in Hx as [_ Hx]. destruct (in_dec dd x b) as [Hi|]; [|discriminate].
      apply share_range in Hi. destruct (Req_EM_T (share b x) 0); [lra|reflexivity].
    + intros x _ Hx. destruct (in_dec dd x b) as [|Hi]; [discriminate|]. rewrite share_zero by assumption. destruct (Req_EM_T 0 0); [reflexivity|congruence].
Qed.
Lemma H_nodup b : H b = rsum (map (fun x => share b x * log2R (/ share b x)) (nodup dd b)).
Proof.
  symmetry. unfold H. rewrite (rsum_perm _ _ (Permutation_map _ (all_bytes_perm b))).
  rewrite <- (rsum_filter (fun x => if in_dec dd x b then true else false) (fun x => if Req_EM_T (share b x) 0 then 0 else share b x * log2R (/ share b x))).
  + apply rsum_ext. intros x Hx. apply filter_In in Hx as [_ Hx]. destruct (in_dec dd x b) as [Hi|]; [|discriminate].
    apply share_range in Hi. destruct (Req_EM_T (share b x) 0); [lra|reflexivity].
  + intros x _ Hx. destruct (in_dec dd x b) as [|Hi]; [discriminate|]. rewrite share_zero by assumption. destruct (Req_EM_T 0 0); [reflexivity|congruence].
Qed.
Lemma log2R_nonneg x : 1 <= x -> 0 <= log2R x.
Proof.
  intros Hx. unfold log2R. pose proof ln2_pos. apply Rmult_le_pos; [|left; apply Rinv_0_lt_compat; assumption].
  destruct (Rle_lt_or_eq_dec 1 x Hx) as [L| <-]; [|rewrite ln_1; lra]. rewrite <- ln_1. left. apply ln_increasing; lra.
Qed.
Lemma log2R_pos x : 1 < x -> 0 < log2R x.
Proof. intros Hx. unfold log2R. pose proof ln2_pos. apply Rdiv_lt_0_compat; [|assumption]. rewrite <- ln_1. apply ln_increasing; lra. Qed.
Lemma inv_ge1 p : 0 < p <= 1 -> 1 <= / p.
Proof. intros Hp. rewrite <- Rinv_1 at 1. apply Rinv_le_contravar; lra. Qed.
Lemma ln_le_sub1 x : 0 < x -> ln x <= x - 1.
Proof.
  intros Hx. destruct (Rle_or_lt (ln x) (x - 1)) as [|L]; [assumption|]. exfalso.
  assert (E : exp (x - 1) < x) by (rewrite <- (exp_ln x Hx) at 2; apply exp_increasing; assumption).
  destruct (Req_dec (x - 1) 0) as [Z|Z].
  - rewrite Z, exp_0 in E. lra.
  - pose proof (exp_ineq1 (x - 1) Z). lra.
Qed.

(** *** C44: the entropy of a byte string is H, whatever the order in which the
    histogram is iterated; 0 <= H <= log2(number of distinct bytes) <= log2(length);
    it is 0 iff all bytes are equal; it does not depend on the order of the bytes. *)
Theorem C44_entropy b : b <> [] ->
  (exists v, entropyR_result b v) /\ (forall v, entropyR_result b v -> v = H b) /\
  0 <= H b /\ H b <= log2R (IZR (distinct b)) /\ log2R (IZR (distinct b)) <= log2R (IZR (zlen b)) /\
  (H b = 0 <-> exists x, forall y, In y b -> y = x) /\
  (forall b', Permutation b b' -> H b' = H b).
Proof.
  intros Hb. pose proof ln2_pos as L2.
  assert (T : forall x, In x (nodup dd b) -> 0 <= share b x * log2R (/ share b x)).
  { intros x Hx. apply nodup_In, share_range in Hx. apply Rmult_le_pos; [lra|]. apply log2R_nonneg, inv_ge1. assumption. }
  assert (D0 : (0 < length (nodup dd b))%nat).
  { destruct b as [|x b']; [congruence|]. assert (In x (nodup dd (x :: b'))) by (apply nodup_In; left; reflexivity). destruct (nodup dd (x :: b')); [contradiction|cbn; lia]. }
  assert (D1 : (length (nodup dd b) <= length b)%nat).
  { apply NoDup_incl_length; [apply NoDup_nodup|]. intros x Hx. apply nodup_In in Hx. assumption. }
  assert (DN : IZR (distinct b) = INR (length (nodup dd b))) by (unfold distinct, zlen; rewrite <- INR_IZR_INZ; reflexivity).
  assert (LN : IZR (zlen b) = INR (length b)) by (unfold zlen; rewrite <- INR_IZR_INZ; reflexivity).
  assert (K0 : 0 < INR (length (nodup dd b))) by (apply lt_0_INR; assumption).
  split; [exists (ShannonEntropyR (zlen b) (byte_counts b)), (byte_counts b); split; reflexivity|].
  split; [apply result_H|]. split; [|split; [|split; [|split]]].
  - rewrite H_nodup. rewrite <- (Rmult_0_r (INR (length (nodup dd b)))), <- (rsum_const 0). apply rsum_le. assumption.
  - (* Gibbs: sum p ln(1/(k p)) <= sum (1/k - p) = 0 *)
    rewrite H_nodup, DN. set (k := INR (length (nodup dd b))) in *.
    assert (G : rsum (map (fun x => share b x * log2R (/ share b x)) (nodup dd b)) <=
              rsum (map (fun x => (/ k - share b x) * / ln 2 + share b x * log2R k) (nodup dd b))).
    { apply rsum_le. intros x Hx. apply nodup_In, share_range in Hx. set (p := share b x) in *.
      assert (Pk : 0 < / (k * p)) by (apply Rinv_0_lt_compat, Rmult_lt_0_compat; lra).
      pose proof (ln_le_sub1 _ Pk) as I. rewrite ln_Rinv in I by (apply Rmult_lt_0_compat; lra). rewrite ln_mult in I by lra.
      unfold log2R. rewrite ln_Rinv by lra.
      assert (p * - ln p <= (/ k - p) + p * ln k).
      { assert (p * (- (ln k + ln p)) <= p * (/ (k * p) - 1)) by (apply Rmult_le_compat_l; lra).
        replace (p * (/ (k * p) - 1)) with (/ k - p) in H0 by (field; lra). lra. }
      unfold Rdiv. rewrite <- !Rmult_assoc, <- Rmult_plus_distr_r. apply Rmult_le_compat_r; [left; apply Rinv_0_lt_compat; assumption|assumption]. }
    eapply Rle_trans; [exact G|]. right.
    assert (SP : forall (f g : byte -> R) l, rsum (map (fun x => f x + g x) l) = rsum (map f l) + rsum (map g l)).
    { intros f g l. induction l as [|x l IH]; cbn; [lra|]. unfold rsum in *. lra. }
    rewrite SP, !rsum_scal. rewrite share_sum by assumption.
    replace (rsum (map (fun x => / k - share b x) (nodup dd b))) with 0; [lra|].
    unfold Rminus. rewrite SP, rsum_const. fold k. rewrite <- (rsum_opp (share b)), share_sum by assumption. field. lra.
  - rewrite DN, LN. unfold log2R. apply Rmult_le_compat_r; [left; apply Rinv_0_lt_compat; assumption|].
    apply le_INR in D1. destruct (Rle_lt_or_eq_dec _ _ D1) as [L| ->]; [left; apply ln_increasing; assumption|lra].
  - rewrite H_nodup. split.
    + intros H0. destruct (nodup dd b) as [|x r] eqn:E; [cbn in D0; lia|]. exists x. intros y Hy. apply (nodup_In dd) in Hy. rewrite E in Hy.
      destruct Hy as [->|Hy]; [reflexivity|]. exfalso.
      assert (R0 : 0 <= rsum (map (fun z => share b z * log2R (/ share b z)) r)).
      { rewrite <- (Rmult_0_r (INR (length r))), <- (rsum_const 0). apply rsum_le. intros. apply T. right. assumption. }
      cbn [map rsum fold_right] in H0. unfold rsum in R0.
      assert (Tx := T x (or_introl eq_refl)). assert (Ex : share b x * log2R (/ share b x) = 0) by lra.
      assert (Ix : In x b) by (apply (nodup_In dd); rewrite E; left; reflexivity). assert (Rx := share_range b x Ix).
      assert (Sx : share b x = 1).
      { destruct (Rle_lt_or_eq_dec _ _ (proj2 Rx)) as [L|]; [|assumption]. exfalso.
        assert (1 < / share b x) by (rewrite <- Rinv_1 at 1; apply Rinv_lt_contravar; lra).
        pose proof (log2R_pos _ H1). assert (0 < share b x * log2R (/ share b x)) by (apply Rmult_lt_0_compat; lra). lra. }
      pose proof (share_sum b Hb) as SS. rewrite E in SS. cbn [map rsum fold_right] in SS.
      assert (Iy : In y b) by (apply (nodup_In dd); rewrite E; right; assumption). assert (Ry := share_range b y Iy).
      assert (0 < rsum (map (share b) r)).
      { clear - Hy E. assert (P : forall z, In z r -> 0 < share b z) by (intros z Hz; apply share_range, (nodup_In dd); rewrite E; right; assumption).
        clear E. revert P. induction r as [|w r IH]; intros P; [destruct Hy|]. cbn [map rsum fold_right].
        assert (Pw := P w (or_introl eq_refl)). destruct r as [|w' r'].
        - cbn. lra.
        - assert (Hw : 0 <= rsum (map (share b) (w' :: r'))).
          { rewrite <- (Rmult_0_r (INR (length (w' :: r')))), <- (rsum_const 0). apply rsum_le. intros z Hz. left. apply P. right. assumption. }
          unfold rsum in Hw |- *. lra. }
      unfold rsum in H1. lra.
    + intros (x & Hx). assert (E : nodup dd b = [x]).
      { assert (A : forall y, In y (nodup dd b) -> y = x) by (intros y Hy; apply Hx, (nodup_In dd b y); assumption).
        pose proof (NoDup_nodup dd b) as ND. destruct (nodup dd b) as [|y [|z r]]; [cbn in D0; lia| |].
        - rewrite (A y (or_introl eq_refl)). reflexivity.
        - exfalso. inversion ND as [|? ? N _]; subst. apply N. left. rewrite (A y (or_introl eq_refl)), (A z (or_intror (or_introl eq_refl))). reflexivity. }
      rewrite E. pose proof (share_sum b Hb) as SS. rewrite E in SS. cbn in SS. cbn. replace (share b x) with 1 by lra.
      rewrite Rinv_1. unfold log2R. rewrite ln_1. lra.
  - intros b' P. unfold H. apply rsum_ext. intros x _. unfold share. rewrite (proj1 (Permutation_count_occ dd b b') P x). rewrite (Permutation_length P). reflexivity.
Qed.
Print Assumptions C44_entropy.
(** no bytes: entropy 0 *)
Theorem C44_empty v : entropyR_result [] v -> v = 0.
Proof. intros (cs & P & ->). cbn in P. apply Permutation_sym, Permutation_nil in P. subst. unfold ShannonEntropyR. cbn. lra. Qed.
Print Assumptions C44_empty.
(** two equally frequent bytes: one bit *)
Example C44_ex : H [x01; x02; x02; x01] = 1.
Proof.
  rewrite H_nodup. replace (nodup dd [x01; x02; x02; x01]) with [x02; x01] by reflexivity.
  assert (S : forall x, In x [x02; x01] -> share [x01; x02; x02; x01] x = / 2).
  { intros x Hx. unfold share. destruct Hx as [<-|[<-|[]]]; cbn [count_occ]; cbn; lra. }
  unfold rsum; cbn [map fold_right]. rewrite (S x02), (S x01) by (cbn; auto). rewrite Rinv_inv. unfold log2R. pose proof ln2_pos. field. lra.
Qed.

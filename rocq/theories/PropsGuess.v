(** Property theorem C42: the guessed block size. *)
From Coq Require Import ZArith Reals Lia Lra.
From Verif Require Import Go GoProofs Layout IoUtil Identify PropsIdentify F64Proofs.
From Flocq Require Import Core.
Open Scope Z_scope.

(** ** the float expression is exact enough *)
Lemma guess_exact S c k : 0 < c <= 2^20 -> 0 <= k < 2^20 - 1 -> c * (4096 * k) <= S < c * (4096 * (k + 1)) ->
  guess (mkHist c S) = 4096 * (k + 1).
Proof.
  intros Hc Hk HS. unfold guess; cbn [Count BlockSizeSum].
  assert (HSb : 0 <= S < 2^52) by nia.
  assert (C0 : (0 < IZR c)%R) by (apply IZR_lt; lia).
  pose (q := (IZR S / IZR c)%R).
  (* the largest multiple of 2^-20 below the next page *)
  pose (top := fun k => (IZR (4096 * (k + 1)) - bpow radix2 (-20))%R).
  assert (Ftop : forall k, 0 <= k < 2^20 -> F64Proofs.rnd (top k) = top k).
  { intros j Hj. apply rnd_id. unfold top.
    replace (IZR (4096 * (j + 1)) - bpow radix2 (-20))%R with (IZR (4096 * (j + 1) * 2^20 - 1) * bpow radix2 (-20))%R.
    - apply fmt_Z_scaled; lia.
    - rewrite minus_IZR, mult_IZR. replace (IZR (2^20)) with (bpow radix2 20) by (rewrite <- (IZR_Zpower radix2) by lia; reflexivity).
      rewrite Rmult_minus_distr_r, Rmult_assoc, <- bpow_plus.
      replace (20 + -20) with 0 by lia. change (bpow radix2 0) with 1%R. ring. }
  assert (Qlo : (IZR (4096 * k) <= q)%R).
  { unfold q. apply Rmult_le_reg_r with (IZR c); [assumption|]. unfold Rdiv. rewrite Rmult_assoc, Rinv_l by lra. rewrite Rmult_1_r, <- mult_IZR. apply IZR_le. lia. }
  assert (Qhi : (q <= top k)%R).
  { assert (q <= IZR (4096 * (k + 1)) - / IZR c)%R.
    { unfold q. apply Rmult_le_reg_r with (IZR c); [assumption|]. unfold Rdiv. rewrite Rmult_assoc, Rinv_l by lra.
      rewrite Rmult_1_r, Rmult_minus_distr_r, Rinv_l by lra. rewrite <- mult_IZR, <- minus_IZR. apply IZR_le. lia. }
    assert (bpow radix2 (-20) <= / IZR c)%R; [|unfold top; lra].
    replace (bpow radix2 (-20)) with (/ IZR (2^20))%R by reflexivity.
    apply Rinv_le; [assumption|]. apply IZR_le. lia. }
  assert (V1 : fval (f64_div (f64_of_Z S) (f64_of_Z c)) (F64Proofs.rnd q)).
  { apply f64_div_val; [apply f64_of_Z_val; lia..|lra|]. fold q. split; [eapply Rle_trans; [|exact Qlo]; apply IZR_le; lia|].
    eapply Rle_trans; [exact Qhi|]. unfold top. assert (0 < bpow radix2 (-20))%R by apply bpow_gt_0.
    assert (IZR (4096 * (k + 1)) <= IZR (2^53))%R by (apply IZR_le; lia). lra. }
  set (r := F64Proofs.rnd q) in *.
  assert (Rlo : (IZR (4096 * k) <= r)%R).
  { unfold r. rewrite <- (rnd_id (IZR (4096 * k))) by (apply fmt_Z; lia). apply rnd_le. assumption. }
  assert (Rhi : (r <= top k)%R) by (unfold r; rewrite <- Ftop by lia; apply rnd_le; assumption).
  assert (Alo : (IZR (4096 * (k + 1)) <= r + 4096)%R).
  { replace (4096 * (k + 1)) with (4096 * k + 4096) by lia. rewrite plus_IZR. lra. }
  assert (Ahi : (r + 4096 <= top (k + 1)%Z)%R).
  { unfold top in *. replace (4096 * (k + 1 + 1)) with (4096 * (k + 1) + 4096) by lia. rewrite plus_IZR. lra. }
  assert (P0 : (0 < bpow radix2 (-20))%R) by apply bpow_gt_0.
  assert (V2 : fval (f64_add (f64_div (f64_of_Z S) (f64_of_Z c)) (f64_of_Z 4096)) (F64Proofs.rnd (r + 4096))).
  { apply f64_add_val; [assumption|apply f64_of_Z_val; lia|]. split; [eapply Rle_trans; [|exact Alo]; apply IZR_le; lia|].
    eapply Rle_trans; [exact Ahi|]. unfold top. assert (IZR (4096 * (k + 1 + 1)) <= IZR (2^53))%R by (apply IZR_le; lia). lra. }
  set (t := F64Proofs.rnd (r + 4096)) in *.
  assert (Tlo : (IZR (4096 * (k + 1)) <= t)%R).
  { unfold t. rewrite <- (rnd_id (IZR (4096 * (k + 1)))) by (apply fmt_Z; lia). apply rnd_le. assumption. }
  assert (Thi : (t <= top (k + 1)%Z)%R) by (unfold t; rewrite <- Ftop by lia; apply rnd_le; assumption).
  assert (Thi' : (t < IZR (4096 * (k + 2)))%R).
  { unfold top in Thi. replace (k + 1 + 1) with (k + 2) in Thi by lia. lra. }
  rewrite (f64_to_u32_val _ t V2).
  2: { split; [eapply Rle_trans; [|exact Tlo]; apply IZR_le; lia|]. eapply Rlt_le_trans; [exact Thi'|]. apply IZR_le. lia. }
  assert (Z1 : 4096 * (k + 1) <= Zfloor t) by (apply Zfloor_lub; assumption).
  assert (Z2 : Zfloor t < 4096 * (k + 2)) by (apply lt_IZR; eapply Rle_lt_trans; [apply Zfloor_lb|assumption]).
  assert (Zfloor t / 4096 = k + 1) by (symmetry; apply Z.div_unique with (Zfloor t - 4096 * (k + 1)); lia). lia.
Qed.

(** *** C42, exact: with c leaves of a filesystem among the blocks (at most 2^20;
    the command samples at most 1000000 by default), let S be the sum of the first
    items' offsets of all of them but the first.  The guess is B iff S / c lies
    between B - 4096 and B. *)
Theorem C42_exact_partial blocks h id min order ent B : zlen blocks <= 2^20 ->
  CollectBlocks (map sl blocks) [] = Ok h -> Permutation.Permutation order h ->
  B mod 4096 = 0 -> 0 < B < 2^32 ->
  let c := zlen (leaves_of id blocks) in
  let S := zsum (map first_offset (tl (leaves_of id blocks))) in
  S < c * (2^32 - 4096) ->
  forall e, In e (Entries ent min order) -> e_FSID e = id ->
  (e_BlockSize e = B <-> c * (B - 4096) <= S < c * B).
Proof.
  intros Hl H P HB HB2 c S HSm e He Hid. apply (Inv_all blocks [] [] h) in H; [|apply Inv_nil|rewrite zlen_nil; lia]. cbn [app] in H.
  destruct H as [ND I]. apply Entries_In in He as (i & x & Hi & _ & ->). cbn [e_FSID e_BlockSize] in *. subst i.
  rewrite (Permutation.Permutation_in' eq_refl P) in Hi. apply map_get_In in Hi; [|assumption].
  specialize (I id). rewrite Hi in I. destruct I as (_ & I2 & I3 & I4). fold c in I3. fold S in I4.
  assert (Hc : 0 < c <= 2^20).
  { unfold c. split.
    - destruct (leaves_of id blocks) as [|b0 r]; [congruence|]. rewrite zlen_cons. pose proof (zlen_nonneg r). lia.
    - etransitivity; [|exact Hl]. unfold leaves_of. clear. induction blocks; cbn [filter]; [lia|]. destruct (leaf_of _ _); rewrite ?zlen_cons; lia. }
  assert (HS0 : 0 <= S).
  { unfold S. generalize (tl (leaves_of id blocks)). intros l. induction l as [|b l IH]; cbn; [lia|].
    assert (0 <= first_offset b) by (unfold first_offset, pnum; destruct (_ =? 0); [lia|apply le_decode_range]). unfold zsum in IH. lia. }
  assert (HSx : BlockSizeSum x = S) by (rewrite I4; apply Z.mod_small; nia).
  pose (k := S / (c * 4096)).
  assert (Hk : c * (4096 * k) <= S < c * (4096 * (k + 1))).
  { unfold k. pose proof (Z.mul_div_le S (c * 4096) ltac:(lia)). pose proof (Z.mul_succ_div_gt S (c * 4096) ltac:(lia)). nia. }
  assert (Hk2 : 0 <= k < 2^20 - 1) by nia.
  destruct x as [xc xs]; cbn [Count BlockSizeSum] in *. rewrite I3, HSx. clear I4.
  rewrite (guess_exact S c k Hc Hk2 Hk). clearbody k c S. split.
  - intros <-. nia.
  - intros HS. assert (B = 4096 * (B / 4096)) by (rewrite (Z.div_mod B 4096) at 1; lia). set (b := B / 4096) in *. clearbody b. subst B. nia.
Qed.
Print Assumptions C42_exact_partial.

(** *** C42, what holds of the claim: if every leaf's first item lies at least d
    bytes into the last page of a block of size B, then B is guessed as soon as
    there are enough leaves (c * d >= B - 4096 + d). *)
Theorem C42_enough_leaves_partial blocks h id min order ent B d : zlen blocks <= 2^20 ->
  CollectBlocks (map sl blocks) [] = Ok h -> Permutation.Permutation order h ->
  B mod 4096 = 0 -> 0 < B <= 2^32 - 8192 -> 0 < d ->
  (forall bl, In bl (leaves_of id blocks) -> B - 4096 + d <= first_offset bl < B) ->
  B - 4096 + d <= zlen (leaves_of id blocks) * d ->
  forall e, In e (Entries ent min order) -> e_FSID e = id -> e_BlockSize e = B.
Proof.
  intros Hl H P HB HB2 Hd Hf Hc e He Hid.
  assert (G : forall l, (forall bl, In bl l -> B - 4096 + d <= first_offset bl < B) ->
            zlen l * (B - 4096 + d) <= zsum (map first_offset l) <= zlen l * (B - 1)).
  { induction l as [|b l IH]; intros F; [cbn; lia|]. cbn [map zsum fold_right]. rewrite zlen_cons.
    specialize (F b (or_introl eq_refl)) as Fb. assert (IH' := IH (fun x Hx => F x (or_intror Hx))). unfold zsum in IH'. nia. }
  assert (4096 <= B) by (pose proof (Z.div_mod B 4096 ltac:(lia)); lia).
  apply (C42_exact_partial blocks h id min order ent B Hl H P HB ltac:(lia)); try assumption.
  - destruct (leaves_of id blocks) as [|b0 r]; [change (zlen (@nil (list byte))) with 0 in Hc; lia|]. cbn [tl]. rewrite zlen_cons in *. pose proof (zlen_nonneg r).
    destruct (G r (fun x Hx => Hf x (or_intror Hx))). nia.
  - destruct (leaves_of id blocks) as [|b0 r]; [change (zlen (@nil (list byte))) with 0 in Hc; lia|]. cbn [tl]. rewrite zlen_cons in *. pose proof (zlen_nonneg r).
    destruct (G r (fun x Hx => Hf x (or_intror Hx))). nia.
Qed.
Print Assumptions C42_enough_leaves_partial.

(** *** C42, refuted as stated: the first leaf's offset is not added but it is
    counted.  One leaf gives 4096, and two leaves with a first item at 16283 (an
    empty item at the end of a 16 KiB block) give 8192. *)
Definition leaf_at (off : Z) : list byte :=
  repeat x00 32 ++ repeat x07 16 ++ repeat x00 48 ++ le_encode 4 1 ++ [x00] ++ repeat x00 17 ++ le_encode 4 off ++ repeat x00 4.
Theorem C42_refuted :
  (forall bl, In bl [leaf_at 16283; leaf_at 16283] -> 16384 - 4096 <= first_offset bl < 16384) /\
  (exists h, CollectBlocks (map sl [leaf_at 16283]) [] = Ok h /\ map e_BlockSize (Entries (fun _ => S754_zero false) 1 h) = [4096]) /\
  (exists h, CollectBlocks (map sl [leaf_at 16283; leaf_at 16283]) [] = Ok h /\
     map e_BlockSize (Entries (fun _ => S754_zero false) 1 h) = [8192]).
Proof.
  split; [|split].
  - intros bl [<-|[<-|[]]]; vm_compute; split; congruence.
  - eexists. split; [vm_compute; reflexivity|]. vm_compute. reflexivity.
  - eexists. split; [vm_compute; reflexivity|]. vm_compute. reflexivity.
Qed.
Print Assumptions C42_refuted.
(** five leaves are enough for the same offsets: 12288 + 3995 <= 5 * 3995 *)
Example C42_ex : let blocks := repeat (leaf_at 16283) 5 in
  zlen (leaves_of (repeat x07 16) blocks) = 5 /\ 16384 - 4096 + 3995 <= 5 * 3995 /\
  (forall bl, In bl (leaves_of (repeat x07 16) blocks) -> 16384 - 4096 + 3995 <= first_offset bl < 16384) /\
  exists h, CollectBlocks (map sl blocks) [] = Ok h /\ map e_BlockSize (Entries (fun _ => S754_zero false) 1 h) = [16384].
Proof.
  cbv zeta. split; [vm_compute; reflexivity|]. split; [lia|]. split.
  - intros bl H. apply filter_In in H as [H _]. apply repeat_spec in H. subst bl. vm_compute. split; congruence.
  - eexists. split; [vm_compute; reflexivity|]. vm_compute. reflexivity.
Qed.

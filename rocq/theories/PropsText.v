(** Property theorem C33: printed ids, types and keys are unambiguous. *)
From Verif Require Import Go GoProofs Layout ToString.
From Coq Require Import ZifyBool ZifyNat ZifyN.
From Coq Require Import Strings.String.
Ltac Zify.zify_post_hook ::= Z.div_mod_to_equations.

Definition is_dec_digit (b : byte) : bool := (48 <=? bz b) && (bz b <=? 57).
Definition dec_value (l : list byte) : Z := fold_left (fun a b => 10 * a + (bz b - 48)) l 0.
Lemma dec_value_app l : forall a, fold_left (fun a b => 10 * a + (bz b - 48)) l a = a * 10 ^ zlen l + dec_value l.
Proof.
  unfold dec_value. induction l as [|b l IH]; intros a.
  - cbn. lia.
  - cbn [fold_left]. rewrite (IH (10 * a + _)), (IH (10 * 0 + _)). rewrite zlen_cons, Z.pow_add_r by (pose proof (zlen_nonneg l); lia). lia.
Qed.
Lemma dec_value_cons b l : dec_value (b :: l) = (bz b - 48) * 10 ^ zlen l + dec_value l.
Proof. unfold dec_value at 1. cbn [fold_left]. rewrite dec_value_app. lia. Qed.
Lemma digit_bz d : 0 <= d < 10 -> bz (digit_char d) = 48 + d.
Proof. intros H. unfold digit_char. apply bz_zb_small. lia. Qed.
Lemma dec_loop_spec fuel : forall n acc, 0 <= n < 10 ^ Z.of_nat fuel -> (0 < fuel)%nat ->
  exists l, dec_loop fuel n acc = l ++ acc /\ l <> [] /\ forallb is_dec_digit l = true /\ dec_value l = n.
Proof.
  induction fuel as [|fuel IH]; intros n acc Hn Hf; [lia|]. cbn [dec_loop]. destruct (n <? 10) eqn:E.
  - exists [digit_char n]. split; [reflexivity|]. split; [discriminate|]. cbn [forallb]. unfold is_dec_digit. rewrite digit_bz by lia.
    split; [lia|]. rewrite dec_value_cons, digit_bz by lia. change (dec_value []) with 0. change (10 ^ zlen (@nil byte)) with 1. lia.
  - assert (Hp : 10 ^ Z.of_nat (S fuel) = 10 * 10 ^ Z.of_nat fuel) by (rewrite Nat2Z.inj_succ, Z.pow_succ_r; lia).
    destruct fuel as [|fuel']; [cbn in Hn; lia|].
    destruct (IH (n / 10) (digit_char (n mod 10) :: acc)) as (l & E1 & E2 & E3 & E4).
    { split; [lia|]. apply Z.div_lt_upper_bound; lia. } { lia. }
    exists (l ++ [digit_char (n mod 10)]). split; [rewrite E1, <- app_assoc; reflexivity|]. split; [destruct l; discriminate|].
    split; [rewrite forallb_app, E3; cbn [forallb]; unfold is_dec_digit; rewrite digit_bz by lia; lia|].
    unfold dec_value. rewrite fold_left_app. cbn [fold_left]. fold (dec_value l). rewrite E4, digit_bz by lia. lia.
Qed.
Lemma dec_spec n : is_u64 n -> dec n <> [] /\ forallb is_dec_digit (dec n) = true /\ dec_value (dec n) = n.
Proof.
  intros H. unfold dec. destruct (dec_loop_spec 20 n []) as (l & E1 & E2); [unfold is_u64 in H; lia|lia|]. rewrite E1, app_nil_r. exact E2.
Qed.
(** a switch over distinct constants with distinct, non-numeric texts *)
Definition numeric (l : list byte) : bool := forallb is_dec_digit l.
Fixpoint distinct (t : list (Z * list byte)) : bool :=
  match t with
  | [] => true
  | (c, s) :: r => negb (numeric s) && forallb (fun e => negb (bytes_eqb (snd e) s)) r && distinct r
  end.
Lemma switch_cases t x : (exists s, switch t x = s /\ In (x, s) t) \/ switch t x = dec x.
Proof.
  induction t as [|[c s] t IH]; [right; reflexivity|]. cbn [switch]. destruct (x =? c) eqn:E.
  - left. exists s. split; [reflexivity|]. left. f_equal. lia.
  - destruct IH as [(s' & H1 & H2)|H]; [left; exists s'; split; [exact H1|right; exact H2]|right; exact H].
Qed.
Lemma distinct_inj t : distinct t = true -> forall x y s, In (x, s) t -> In (y, s) t -> x = y.
Proof.
  induction t as [|[c s0] t IH]; [intros _ x y s []|]. cbn [distinct]. intros D x y s. apply andb_true_iff in D as [D D3]. apply andb_true_iff in D as [_ D2].
  rewrite forallb_forall in D2.
  assert (HN : forall z, ~ In (z, s0) t). { intros z Hz. specialize (D2 _ Hz). cbn [snd] in D2. rewrite bytes_eqb_refl in D2. discriminate. }
  intros [E1|H1] [E2|H2].
  - congruence.
  - injection E1 as <- <-. destruct (HN _ H2).
  - injection E2 as <- <-. destruct (HN _ H1).
  - exact (IH D3 x y s H1 H2).
Qed.
Lemma distinct_not_numeric t : distinct t = true -> forall x s, In (x, s) t -> numeric s = false.
Proof.
  induction t as [|[c s0] t IH]; [intros _ x s []|]. cbn [distinct]. intros D x s. apply andb_true_iff in D as [D D3]. apply andb_true_iff in D as [D1 _].
  intros [E|H]; [injection E as <- <-; destruct (numeric s0); [discriminate|reflexivity]|exact (IH D3 x s H)].
Qed.
Lemma switch_inj t : distinct t = true -> forall x y, is_u64 x -> is_u64 y -> switch t x = switch t y -> x = y.
Proof.
  intros D x y Hx Hy E. destruct (dec_spec x Hx) as (_ & Nx & Vx), (dec_spec y Hy) as (_ & Ny & Vy).
  destruct (switch_cases t x) as [(s & E1 & I1)|E1], (switch_cases t y) as [(s' & E2 & I2)|E2].
  - assert (Hs : s = s') by congruence. rewrite <- Hs in I2. exact (distinct_inj t D x y s I1 I2).
  - pose proof (distinct_not_numeric t D x s I1) as H. assert (Hs : s = dec y) by congruence. rewrite Hs in H. unfold numeric in H. congruence.
  - pose proof (distinct_not_numeric t D y s' I2) as H. assert (Hs : s' = dec x) by congruence. rewrite Hs in H. unfold numeric in H. congruence.
  - rewrite <- Vx, <- Vy. congruence.
Qed.
Theorem C33_object_id : forall x y, is_u64 x -> is_u64 y -> ObjectIDString x = ObjectIDString y -> x = y.
Proof. apply switch_inj. vm_compute. reflexivity. Qed.
Theorem C33_key_type : forall x y, is_u8 x -> is_u8 y -> KeyTypeString x = KeyTypeString y -> x = y.
Proof. intros x y Hx Hy. apply switch_inj; [vm_compute; reflexivity|unfold is_u8, is_u64 in *; lia..]. Qed.
(** keys *)
Definition no_space (l : list byte) : bool := forallb (fun b => negb (beqb b x20)) l.
Lemma split_space a b a' b' : no_space a = true -> no_space a' = true -> a ++ x20 :: b = a' ++ x20 :: b' -> a = a' /\ b = b'.
Proof.
  revert a'; induction a as [|c a IH]; intros [|c' a'] Ha Ha' E; cbn [app no_space forallb] in *.
  - injection E as E. auto.
  - injection E as <- E. rewrite (proj2 (beqb_eq x20 x20) eq_refl) in Ha'. discriminate.
  - injection E as -> E. rewrite (proj2 (beqb_eq x20 x20) eq_refl) in Ha. discriminate.
  - injection E as <- E. apply andb_true_iff in Ha as [_ Ha]. apply andb_true_iff in Ha' as [_ Ha']. destruct (IH a' Ha Ha' E) as [-> ->]. auto.
Qed.
Lemma digit_no_space l : forallb is_dec_digit l = true -> no_space l = true.
Proof.
  unfold no_space. rewrite !forallb_forall. intros H b Hb. specialize (H b Hb). unfold is_dec_digit in H. destruct (beqb b x20) eqn:E; [|reflexivity].
  apply beqb_eq in E. subst b. discriminate.
Qed.
Lemma switch_no_space t x : forallb (fun e => no_space (snd e)) t = true -> is_u64 x -> no_space (switch t x) = true.
Proof.
  intros H Hx. destruct (switch_cases t x) as [(s & -> & I)| ->].
  - rewrite forallb_forall in H. exact (H _ I).
  - apply digit_no_space, dec_spec, Hx.
Qed.
Lemma dec_signed_inj x y : -2^63 <= x < 2^63 -> -2^63 <= y < 2^63 -> dec_signed x = dec_signed y -> x = y.
Proof.
  intros Hx Hy. unfold dec_signed.
  assert (N : forall z l, 0 <= z < 2^64 -> dec z <> x2d :: l).
  { intros z l Hz E. destruct (dec_spec z Hz) as (_ & D & _). rewrite E in D. discriminate. }
  destruct (x <? 0) eqn:Ex, (y <? 0) eqn:Ey; intros E.
  - injection E as E. destruct (dec_spec (- x)) as (_ & _ & V1); [unfold is_u64; lia|]. destruct (dec_spec (- y)) as (_ & _ & V2); [unfold is_u64; lia|]. rewrite E in V1. lia.
  - symmetry in E. destruct (N y _ ltac:(lia) E).
  - destruct (N x _ ltac:(lia) E).
  - destruct (dec_spec x) as (_ & _ & V1); [unfold is_u64; lia|]. destruct (dec_spec y) as (_ & _ & V2); [unfold is_u64; lia|]. rewrite E in V1. lia.
Qed.
Theorem C33_key : forall a b, is_u64 (ObjectID a) -> is_u8 (KType a) -> is_u64 (KOffset a) -> is_u64 (ObjectID b) -> is_u8 (KType b) -> is_u64 (KOffset b) ->
  Key_String a = Key_String b -> a = b.
Proof.
  intros [o t f] [o' t' f'] Ho Ht Hf Ho' Ht' Hf'. cbn [ObjectID KType KOffset] in *. unfold Key_String. cbn [ObjectID KType KOffset]. intros E.
  assert (SO : forall x, is_u64 x -> no_space (ObjectIDString x) = true) by (intros; apply switch_no_space; [vm_compute; reflexivity|assumption]).
  assert (ST : forall x, is_u8 x -> no_space (KeyTypeString x) = true) by (intros x Hx; apply switch_no_space; [vm_compute; reflexivity|unfold is_u8, is_u64 in *; lia]).
  apply app_inv_head in E. cbn [app] in E. apply split_space in E as [E1 E]; [|apply SO; assumption|apply SO; assumption].
  apply split_space in E as [E2 E]; [|apply ST; assumption|apply ST; assumption]. apply app_inv_tail in E.
  apply C33_object_id in E1; [|assumption|assumption]. apply C33_key_type in E2; [|assumption|assumption].
  apply dec_signed_inj in E; [|apply i64_range|apply i64_range]. subst. f_equal. unfold i64, is_u64 in *. lia.
Qed.
(** every id without a name prints as its decimal value *)
Theorem C33_numbers : forall x, is_u64 x -> forallb is_dec_digit (ObjectIDString x) = true -> dec_value (ObjectIDString x) = x.
Proof.
  intros x Hx H. destruct (switch_cases object_names x) as [(s & E & I)|E]; fold (ObjectIDString x) in E.
  - exfalso. assert (D : distinct object_names = true) by (vm_compute; reflexivity). pose proof (distinct_not_numeric _ D _ _ I) as N. unfold numeric in N. congruence.
  - rewrite E. apply dec_spec, Hx.
Qed.
Example C33_ex : Key_String (mkKey 256 84 (2^64 - 1)) = str "key (FIRST_FREE DIR_ITEM -1)" /\ Key_String (mkKey 1234567 244 7) = str "key (1234567 244 7)".
Proof. split; vm_compute; reflexivity. Qed.
Print Assumptions C33_object_id. Print Assumptions C33_key_type. Print Assumptions C33_key. Print Assumptions C33_numbers.

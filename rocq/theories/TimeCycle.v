(** One cycle of the Gregorian calendar, day by day, for C101. *)
From Verif Require Import Go GoProofs ToString Time SpecTime.
From Coq Require Import ZifyBool ZifyNat ZifyN.
Ltac Zify.zify_post_hook ::= Z.div_mod_to_equations.

(** ** one cycle of 400 years, day by day *)
(** the date of day [r] of a cycle, its years being 1 to 400 *)
Definition cyc (r : Z) : Z * Z * Z := let (y, yday) := absYear (86400 * r) in let (m, d) := monthDay (leap_year (y + 1)) yday in (y + 1, m, d).
Definition eq3 (a b : Z * Z * Z) : bool := let '(y, m, d) := a in let '(y', m', d') := b in (y =? y') && (m =? m') && (d =? d').
Definition good (r : Z) : bool :=
  let '(y, m, d) := cyc r in (1 <=? y) && (y <=? 400) && (1 <=? m) && (m <=? 12) && (1 <=? d) && (d <=? month_length y m) &&
  eq3 (tomorrow (y, m, d)) (if r =? 146096 then (401, 1, 1) else cyc (r + 1)).
Fixpoint all_from (n : nat) (i : Z) (f : Z -> bool) : bool := match n with O => true | S n => if f i then all_from n (i + 1) f else false end.
Lemma all_from_ok f n : forall i, all_from n i f = true -> forall j, i <= j < i + Z.of_nat n -> f j = true.
Proof.
  induction n as [|n IH]; intros i H j Hj; [lia|]. cbn [all_from] in H. destruct (f i) eqn:E; [|discriminate]. destruct (Z.eq_dec j i) as [->|Hn]; [exact E|]. apply (IH (i + 1) H). lia.
Qed.
Lemma cycle_ok : all_from (Z.to_nat 146097) 0 good = true. Proof. vm_cast_no_check (eq_refl true). Qed.
Lemma cycle r : 0 <= r < 146097 -> good r = true.
Proof. intros H. apply (all_from_ok good _ _ cycle_ok). rewrite Z2Nat.id; lia. Qed.

(** Property theorem C32: UUID text form. *)
From Verif Require Import Go GoProofs Uuid.
From Coq Require Import ZifyBool ZifyNat ZifyN.
Ltac Zify.zify_post_hook ::= Z.div_mod_to_equations.

(** ** specification *)
(** the digit characters 0-9, a-f, A-F and their values *)
Definition digits : list (byte * Z) :=
  [(x30,0);(x31,1);(x32,2);(x33,3);(x34,4);(x35,5);(x36,6);(x37,7);(x38,8);(x39,9);
   (x61,10);(x62,11);(x63,12);(x64,13);(x65,14);(x66,15);(x41,10);(x42,11);(x43,12);(x44,13);(x45,14);(x46,15)].
Definition is_digit (c : byte) (v : Z) : Prop := In (c, v) digits.
(** [spells s u]: s without its dashes is the sequence of hex digit pairs of u, most significant digit first *)
Inductive spells : list byte -> list byte -> Prop :=
| sp_nil : spells [] []
| sp_dash s u : spells s u -> spells (x2d :: s) u
| sp_high a x s v u : is_digit a x -> spells_low s x v u -> spells (a :: s) (v :: u)
with spells_low : list byte -> Z -> byte -> list byte -> Prop :=
| sl_dash s x v u : spells_low s x v u -> spells_low (x2d :: s) x v u
| sl_low b y s x v u : is_digit b y -> bz v = 16 * x + y -> spells s u -> spells_low (b :: s) x v u.
Scheme spells_mind := Induction for spells Sort Prop with spells_low_mind := Induction for spells_low Sort Prop.
Combined Scheme spells_both from spells_mind, spells_low_mind.

Lemma fromHexChar_spec c v : fromHexChar c = Some v <-> is_digit c v.
Proof.
  unfold is_digit, digits. split.
  - intros H. destruct c; vm_compute in H; try discriminate; injection H as <-; vm_compute; auto 30.
  - intros H. repeat (destruct H as [[= <- <-]|H]; [vm_compute; reflexivity|]). destruct H.
Qed.
Lemma digit_range c v : is_digit c v -> 0 <= v < 16.
Proof. intros H. unfold is_digit, digits in H. repeat (destruct H as [[= <- <-]|H]; [lia|]). destruct H. Qed.
Lemma digit_not_dash c v : is_digit c v -> c <> x2d.
Proof. intros H. unfold is_digit, digits in H. repeat (destruct H as [[= <- <-]|H]; [discriminate|]). destruct H. Qed.
Lemma remove_dash s : remove_dashes (x2d :: s) = remove_dashes s. Proof. reflexivity. Qed.
Lemma remove_other c s : c <> x2d -> remove_dashes (c :: s) = c :: remove_dashes s.
Proof. intros H. cbn [remove_dashes filter]. destruct (beqb c dash) eqn:E; [|reflexivity]. apply beqb_eq in E. contradiction. Qed.
Lemma spells_decode_both :
  (forall s u, spells s u -> DecodeString (remove_dashes s) = Some u) /\
  (forall s x v u, spells_low s x v u -> exists b t, remove_dashes s = b :: t /\ exists y, is_digit b y /\ bz v = 16 * x + y /\ DecodeString t = Some u).
Proof.
  apply spells_both.
  - reflexivity.
  - intros s u _ H. exact H.
  - intros a x s v u Ha _ (b & t & E & y & Hb & Hv & Ht). rewrite remove_other, E by exact (digit_not_dash _ _ Ha). cbn [DecodeString].
    apply fromHexChar_spec in Ha, Hb. rewrite Ha, Hb, Ht. do 2 f_equal. replace (x * 16 + y) with (bz v) by lia. apply zb_bz.
  - intros s x v u _ H. exact H.
  - intros b y s x v u Hb Hv _ H. exists b, (remove_dashes s). split; [apply remove_other; exact (digit_not_dash _ _ Hb)|]. eauto.
Qed.
Lemma decode_spells n : forall s, (length s <= n)%nat ->
  (forall u, DecodeString (remove_dashes s) = Some u -> spells s u) /\
  (forall b t y u x v, remove_dashes s = b :: t -> is_digit b y -> DecodeString t = Some u -> bz v = 16 * x + y -> spells_low s x v u).
Proof.
  induction n as [|n IH]; intros s Hn.
  { destruct s; [|cbn in Hn; lia]. split; [intros u [= <-]; constructor|discriminate]. }
  destruct s as [|c s]; [split; [intros u [= <-]; constructor|discriminate]|]. cbn [length] in Hn. destruct (IH s) as [IH1 IH2]; [lia|].
  destruct (beqb c x2d) eqn:E.
  - apply beqb_eq in E as ->. split.
    + intros u H. apply sp_dash, IH1, H.
    + intros b t y u x v H1 H2 H3 H4. apply sl_dash. exact (IH2 b t y u x v H1 H2 H3 H4).
  - assert (Hc : c <> x2d) by (intros ->; discriminate). rewrite (remove_other c s Hc). split.
    + intros u H. destruct (remove_dashes s) as [|b t] eqn:Es; cbn [DecodeString] in H; [discriminate|].
      destruct (fromHexChar c) as [x|] eqn:Ex; [|discriminate]. destruct (fromHexChar b) as [y|] eqn:Ey; [|discriminate].
      destruct (DecodeString t) as [u'|] eqn:Et; [|discriminate]. injection H as <-. apply fromHexChar_spec in Ex, Ey.
      apply (sp_high c x); [exact Ex|]. apply (IH2 b t y u' x _ eq_refl Ey Et). pose proof (digit_range _ _ Ex). pose proof (digit_range _ _ Ey).
      rewrite bz_zb_small by lia. lia.
    + intros b t y u x v [= <- <-] Hy Hu Hv. apply (sl_low c y); [exact Hy|exact Hv|]. apply IH1, Hu.
Qed.
Lemma decode_iff s u : DecodeString (remove_dashes s) = Some u <-> spells s u.
Proof. split; [apply (proj1 (decode_spells (length s) s (le_n _)))|apply spells_decode_both]. Qed.

(** Set succeeds exactly on the strings spelling 16 bytes, with these bytes as
    the result; otherwise the value is unchanged *)
Theorem C32_parse : forall old s,
  (forall u, Set_ old s = (u, true) <-> spells s u /\ length u = 16%nat) /\
  ((forall u, length u = 16%nat -> ~ spells s u) -> Set_ old s = (old, false)).
Proof.
  intros old s. unfold Set_. split.
  - intros u. split.
    + intros H. destruct (DecodeString (remove_dashes s)) as [b|] eqn:E; [|discriminate]. destruct (zlen b =? 16) eqn:L; cbn [negb] in H; [|discriminate].
      injection H as <-. apply decode_iff in E. split; [exact E|]. unfold zlen in L. lia.
    + intros [H L]. apply decode_iff in H. rewrite H. unfold zlen. rewrite L. reflexivity.
  - intros H. destruct (DecodeString (remove_dashes s)) as [b|] eqn:E; [|reflexivity]. destruct (zlen b =? 16) eqn:L; [|reflexivity].
    exfalso. apply (H b); [unfold zlen in L; lia|apply decode_iff; exact E].
Qed.
(** counting: a string parses iff, dashes removed, it has exactly 32 characters, all hex digits *)
Definition plain (s : list byte) : list byte := filter (fun c => negb (beqb c x2d)) s.
Lemma decode_len n : forall t, (length t <= n)%nat -> (exists u, DecodeString t = Some u /\ (2 * length u = length t)%nat) <-> (Forall (fun c => exists v, is_digit c v) t /\ Nat.even (length t) = true).
Proof.
  induction n as [|n IH]; intros t Hn.
  { destruct t; [|cbn in Hn; lia]. split; [intros _; split; [constructor|reflexivity]|intros _; exists []; split; reflexivity]. }
  destruct t as [|a [|b t]].
  - split; [intros _; split; [constructor|reflexivity]|intros _; exists []; split; reflexivity].
  - split; [intros (u & H & _); discriminate|intros [_ H]; discriminate].
  - cbn [length] in *. specialize (IH t ltac:(lia)). split.
    + intros (u & H & L). cbn [DecodeString] in H. destruct (fromHexChar a) eqn:Ea; [|discriminate]. destruct (fromHexChar b) eqn:Eb; [|discriminate].
      destruct (DecodeString t) as [u'|] eqn:Et; [|discriminate]. injection H as <-. cbn [length] in L.
      destruct (proj1 IH) as [F E]; [exists u'; split; [reflexivity|lia]|]. apply fromHexChar_spec in Ea, Eb. split; [constructor; [eauto|constructor; [eauto|exact F]]|exact E].
    + intros [F E]. inversion F as [|? ? [x Ha] F']; subst. inversion F' as [|? ? [y Hb] F'']; subst.
      destruct (proj2 IH) as (u & Hu & L); [split; [exact F''|exact E]|]. apply fromHexChar_spec in Ha, Hb. cbn [DecodeString]. rewrite Ha, Hb, Hu. eexists. split; [reflexivity|]. cbn [length]. lia.
Qed.
Lemma decode_length n : forall t, (length t <= n)%nat -> forall u, DecodeString t = Some u -> (2 * length u = length t)%nat.
Proof.
  induction n as [|n IH]; intros t Hn u H.
  - destruct t; [|cbn in Hn; lia]. injection H as <-. reflexivity.
  - destruct t as [|a [|b t]]; [injection H as <-; reflexivity|discriminate|]. cbn [length DecodeString] in *.
    destruct (fromHexChar a); [|discriminate]. destruct (fromHexChar b); [|discriminate]. destruct (DecodeString t) as [u'|] eqn:E; [|discriminate].
    injection H as <-. cbn [length]. specialize (IH t ltac:(lia) u' E). lia.
Qed.
Theorem C32_accepts : forall old s,
  snd (Set_ old s) = true <-> (length (plain s) = 32%nat /\ Forall (fun c => exists v, is_digit c v) (plain s)).
Proof.
  intros old s. change (plain s) with (remove_dashes s). unfold Set_. destruct (decode_len (length (remove_dashes s)) (remove_dashes s) (le_n _)) as [A B]. split.
  - intros H. destruct (DecodeString (remove_dashes s)) as [b|] eqn:E; [|discriminate]. destruct (zlen b =? 16) eqn:L; cbn [negb snd] in H; [|discriminate].
    pose proof (decode_length _ _ (le_n _) _ E). unfold zlen in L. split; [lia|]. apply A. eauto.
  - intros [L F]. destruct B as (u & Hu & Hl); [split; [exact F|rewrite L; reflexivity]|]. rewrite Hu. unfold zlen. replace (length u) with 16%nat by lia. reflexivity.
Qed.
(** round trip; the text is 36 characters, lower case, dashes in the usual places *)
Lemma hexChar_digit i : 0 <= i < 16 -> is_digit (hexChar i) i.
Proof.
  intros H. unfold is_digit, digits.
  assert (E : i = 0 \/ i = 1 \/ i = 2 \/ i = 3 \/ i = 4 \/ i = 5 \/ i = 6 \/ i = 7 \/ i = 8 \/ i = 9 \/ i = 10 \/ i = 11 \/ i = 12 \/ i = 13 \/ i = 14 \/ i = 15) by lia.
  repeat destruct E as [->|E]; [..|subst i]; vm_compute; auto 30.
Qed.
Lemma String_spells u : forall i, spells (String_loop i u) u.
Proof.
  induction u as [|v u IH]; intros i; cbn [String_loop]; [constructor|]. pose proof (bz_range v).
  apply (sp_high _ (bz v / 16)); [apply hexChar_digit; lia|]. apply (sl_low _ (bz v mod 16)); [apply hexChar_digit; lia|lia|].
  destruct ((i =? 3) || (i =? 5) || (i =? 7) || (i =? 9)); cbn [app]; [apply sp_dash|]; apply IH.
Qed.
Theorem C32_roundtrip : forall u old, length u = 16%nat -> Set_ old (String u) = (u, true) /\ New (String u) = (u, true).
Proof. intros u old H. split; (apply (proj1 (C32_parse _ (String u))); split; [apply String_spells|exact H]). Qed.
Theorem C32_shape : forall u, length u = 16%nat -> length (String u) = 36%nat /\
  forall i, (i < 36)%nat -> nth i (String u) x00 = x2d <-> In i [8; 13; 18; 23]%nat.
Proof.
  intros u H. do 16 (destruct u as [|?v u]; [discriminate|]). destruct u; [|discriminate]. split; [reflexivity|].
  assert (ND : forall v, hexChar (bz v / 16) <> x2d /\ hexChar (bz v mod 16) <> x2d).
  { intros b. pose proof (bz_range b). split; (eapply digit_not_dash; apply hexChar_digit; lia). }
  intros i Hi. unfold String. cbn [String_loop Z.eqb Z.add Pos.eqb orb app Pos.add Pos.succ].
  do 36 (destruct i as [|i]; [cbn [nth]; split; [intros E|cbn; intros E]; first [solve [destruct (proj1 (ND _) E)] | solve [destruct (proj2 (ND _) E)] | solve [vm_compute; auto 10] | solve [reflexivity] | lia]|]). lia.
Qed.
Theorem C32_string_injective : forall u v, length u = 16%nat -> length v = 16%nat -> String u = String v -> u = v.
Proof. intros u v Hu Hv E. pose proof (C32_roundtrip u [] Hu) as [A _]. pose proof (C32_roundtrip v [] Hv) as [B _]. congruence. Qed.
(** letter case: upper-casing digits does not change the result *)
Definition upper (c : byte) : byte := if (97 <=? bz c) && (bz c <=? 122) then zb (bz c - 32) else c.
Lemma upper_spec c : (c = x2d <-> upper c = x2d) /\ forall v, is_digit c v -> is_digit (upper c) v.
Proof.
  split; [destruct c; vm_compute; split; intros; congruence|]. intros v H. apply fromHexChar_spec in H. apply fromHexChar_spec.
  destruct c; vm_compute in H; try discriminate; injection H as <-; vm_compute; reflexivity.
Qed.
Lemma upper_spells_both : (forall s u, spells s u -> spells (map upper s) u) /\ (forall s x v u, spells_low s x v u -> spells_low (map upper s) x v u).
Proof.
  apply spells_both; intros; cbn [map].
  - constructor.
  - change (upper x2d) with x2d. apply sp_dash. assumption.
  - eapply sp_high; [apply upper_spec; eassumption|assumption].
  - change (upper x2d) with x2d. apply sl_dash. assumption.
  - eapply sl_low; [apply upper_spec; eassumption|eassumption|assumption].
Qed.
Theorem C32_case : forall u old s, Set_ old s = (u, true) -> Set_ old (map upper s) = (u, true).
Proof. intros u old s H. apply (C32_parse old s) in H as [H L]. apply (C32_parse old (map upper s)). split; [apply upper_spells_both; exact H|exact L]. Qed.
Theorem C32_zero_and_ones : forall u, length u = 16%nat -> (IsZero u = true <-> Forall (fun b => bz b = 0) u) /\ (IsAllFs u = true <-> Forall (fun b => bz b = 255) u).
Proof.
  assert (G : forall (c : byte) n u, length u = n -> (bytes_eqb u (repeat c n) = true <-> Forall (fun b => bz b = bz c) u)).
  { intros c n u <-. rewrite bytes_eqb_eq. induction u as [|a u IH]; cbn [length repeat]; [split; [constructor|reflexivity]|]. split.
    - intros [= -> E]. constructor; [reflexivity|apply IH, E].
    - intros F. inversion F as [|? ? E F']; subst. apply bz_inj in E. subst. f_equal. apply IH, F'. }
  intros u H. split; [exact (G x00 16%nat u H)|exact (G xff 16%nat u H)].
Qed.
Example C32_ex : String (map (fun n => zb (Z.of_nat n * 17)) (seq 0 16)) =
  [x30;x30;x31;x31;x32;x32;x33;x33;x2d;x34;x34;x35;x35;x2d;x36;x36;x37;x37;x2d;x38;x38;x39;x39;x2d;x61;x61;x62;x62;x63;x63;x64;x64;x65;x65;x66;x66]
  /\ snd (Set_ [] [x2d; x31]) = false.
Proof. vm_compute. split; reflexivity. Qed.
Print Assumptions C32_parse. Print Assumptions C32_accepts. Print Assumptions C32_roundtrip. Print Assumptions C32_shape. Print Assumptions C32_string_injective. Print Assumptions C32_case. Print Assumptions C32_zero_and_ones.

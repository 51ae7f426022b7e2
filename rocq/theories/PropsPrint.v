(** C98: what ls prints: aligned columns. *)
From Verif Require Import Go GoProofs Layout LayoutProofs SpecLayout ToString PropsText Tabwriter SpecTab TabProofs Recover Ls PropsLs PropsLsEx.
From Coq Require Import List ZifyBool ZifyNat Permutation.
Ltac Zify.zify_post_hook ::= Z.div_mod_to_equations.

(** ** characters *)
Lemma rune_size_pos c r : (1 <= rune_size c r)%nat.
Proof. unfold rune_size. repeat match goal with |- context [if ?b then _ else _] => destruct b end; lia. Qed.
Lemma conts_length lo hi n r : conts lo hi n r = true -> (S n <= length r)%nat.
Proof. destruct r as [|c r]; [discriminate|]. unfold conts. rewrite !andb_true_iff. intros ((_ & H) & _). cbn [length]. apply Nat.leb_le in H. lia. Qed.
Lemma rune_size_le c r : (rune_size c r <= S (length r))%nat.
Proof.
  unfold rune_size. repeat match goal with |- context [if ?b then _ else _] => destruct b eqn:?; [rewrite ?andb_true_iff in *; match goal with H : _ /\ conts _ _ _ _ = true |- _ => destruct H as [_ H]; apply conts_length in H; lia end|] end. lia.
Qed.
Lemma rune_loop_more f : forall g l, (length l <= f)%nat -> (length l <= g)%nat -> rune_loop f l = rune_loop g l.
Proof.
  induction f as [|f IH]; intros [|g] [|c l] Hf Hg; cbn [length] in *; try lia; try reflexivity. cbn [rune_loop]. f_equal.
  pose proof (rune_size_pos (bz c) l). apply IH; rewrite skipn_length; cbn [length]; lia.
Qed.
Lemma RuneCount_cons c r : RuneCount (c :: r) = 1 + RuneCount (skipn (rune_size (bz c) r) (c :: r)).
Proof.
  unfold RuneCount. cbn [length rune_loop]. f_equal. pose proof (rune_size_pos (bz c) r). apply rune_loop_more; rewrite skipn_length; cbn [length]; lia.
Qed.
Lemma conts_app lo hi n r c b : 128 <= lo -> bz c < 128 -> conts lo hi n (r ++ c :: b) = conts lo hi n r.
Proof.
  intros Hlo Hc. destruct r as [|y r]; cbn [app conts]; [unfold in_span; destruct (lo <=? bz c) eqn:E; [lia|reflexivity]|].
  destruct (in_span lo (bz y) hi); [|reflexivity]. cbn [andb]. destruct (Nat.leb_spec n (length r)) as [H|H].
  - rewrite firstn_app. replace (n - length r)%nat with O by lia. cbn [firstn]. rewrite app_nil_r. replace (n <=? length (r ++ c :: b))%nat with true by (symmetry; apply Nat.leb_le; rewrite app_length; lia). reflexivity.
  - cbn [andb]. destruct (n <=? length (r ++ c :: b))%nat; [cbn [andb]|reflexivity]. rewrite firstn_app, forallb_app. replace (n - length r)%nat with (S (n - length r - 1)) by lia. cbn [firstn forallb].
    unfold in_span at 2. destruct (128 <=? bz c) eqn:E; [lia|]. cbn [andb]. apply andb_false_r.
Qed.
Lemma rune_size_app x r c b : bz c < 128 -> rune_size x (r ++ c :: b) = rune_size x r.
Proof. intros H. unfold rune_size. rewrite !conts_app by lia. reflexivity. Qed.
(** text before an ASCII character is counted by itself *)
Lemma RuneCount_app a : forall c b, bz c < 128 -> RuneCount (a ++ c :: b) = RuneCount a + RuneCount (c :: b).
Proof.
  induction a as [a IH] using (induction_ltof1 _ (@length byte)); unfold ltof in IH. intros c b Hc. destruct a as [|x r]; [reflexivity|]. cbn [app]. rewrite !RuneCount_cons with (c := x). rewrite rune_size_app by assumption.
  pose proof (rune_size_pos (bz x) r). pose proof (rune_size_le (bz x) r). change (x :: r ++ c :: b) with ((x :: r) ++ c :: b). rewrite skipn_app. cbn [length].
  replace (rune_size (bz x) r - S (length r))%nat with O by lia. cbn [skipn]. rewrite IH by (try assumption; rewrite skipn_length; cbn [length]; lia). lia.
Qed.
Lemma rune_size_ascii c r : 0 <= c < 128 -> rune_size c r = 1%nat.
Proof. intros H. unfold rune_size, in_span. repeat match goal with |- context [if ?b then _ else _] => replace b with false by (symmetry; repeat (apply andb_false_iff; left); lia) end. reflexivity. Qed.
Lemma RuneCount_ascii c r : bz c < 128 -> RuneCount (c :: r) = 1 + RuneCount r.
Proof. intros H. rewrite RuneCount_cons, rune_size_ascii by (pose proof (bz_range c); lia). reflexivity. Qed.
Lemma RuneCount_pad f k r : 0 <= k -> RuneCount (f ++ repeat x20 (Z.to_nat k) ++ r) = if k =? 0 then RuneCount (f ++ r) else RuneCount f + k + RuneCount r.
Proof.
  intros Hk. destruct (k =? 0) eqn:E; [replace k with 0 by lia; reflexivity|]. assert (S : forall m, RuneCount (repeat x20 m ++ r) = Z.of_nat m + RuneCount r).
  { induction m as [|m IH]; [reflexivity|]. cbn [repeat app]. rewrite RuneCount_ascii by (vm_compute; reflexivity). rewrite IH. lia. }
  destruct (Z.to_nat k) as [|m] eqn:M; [lia|]. cbn [repeat app]. rewrite RuneCount_app by (vm_compute; reflexivity). change (x20 :: repeat x20 m ++ r) with (repeat x20 (Datatypes.S m) ++ r). rewrite S. lia.
Qed.
(** C98a: what the program counts are characters *)
Theorem C98_characters : forall cs, Forall scalar cs -> RuneCount (concat (map utf8 cs)) = Z.of_nat (length cs).
Proof.
  induction cs as [|c cs IH]; intros H; [reflexivity|]. inversion H as [|? ? Hc H']; subst. specialize (IH H'). cbn [map concat length]. rewrite Nat2Z.inj_succ, <- IH. clear IH H H'. destruct Hc as [Hc Hs]. generalize (concat (map utf8 cs)). intros r.
  assert (K : forall x, 0x80 <= x <= 0xbf -> in_span 128 (bz (zb x)) 191 = true) by (intros x Hx; rewrite bz_zb_small by lia; unfold in_span; lia).
  unfold utf8. destruct (c <? 0x80) eqn:E1; [cbn [app]; rewrite RuneCount_ascii by (rewrite bz_zb_small; lia); lia|].
  destruct (c <? 0x800) eqn:E2; [|destruct (c <? 0x10000) eqn:E3]; cbn [app]; rewrite RuneCount_cons; rewrite bz_zb_small by lia.
  - assert (E : rune_size (0xc0 + c / 64) (zb (0x80 + c mod 64) :: r) = 2%nat).
    { unfold rune_size. replace (in_span 0xc2 (0xc0 + c / 64) 0xdf) with true by (unfold in_span; lia). unfold conts. cbn [firstn forallb]. rewrite K by lia. reflexivity. }
    rewrite E. cbn [skipn]. lia.
  - assert (E : rune_size (0xe0 + c / 4096) (zb (0x80 + c / 64 mod 64) :: zb (0x80 + c mod 64) :: r) = 3%nat).
    { unfold rune_size. replace (in_span 0xc2 (0xe0 + c / 4096) 0xdf) with false by (unfold in_span; lia). cbn [andb]. unfold conts. cbn [length Nat.leb firstn forallb]. rewrite (K (0x80 + c mod 64)) by lia. rewrite !andb_true_r. rewrite bz_zb_small by lia.
      destruct (0xe0 + c / 4096 =? 0xe0) eqn:A; [replace (in_span 160 (128 + c / 64 mod 64) 191) with true by (unfold in_span; lia); reflexivity|]. cbn [andb].
      destruct (0xe0 + c / 4096 =? 0xed) eqn:B; [replace (in_span 128 (128 + c / 64 mod 64) 159) with true by (unfold in_span; lia); reflexivity|]. cbn [andb negb].
      replace (in_span 225 (0xe0 + c / 4096) 239) with true by (unfold in_span; lia). replace (in_span 128 (128 + c / 64 mod 64) 191) with true by (unfold in_span; lia). reflexivity. }
    rewrite E. cbn [skipn]. lia.
  - assert (E : rune_size (0xf0 + c / 262144) (zb (0x80 + c / 4096 mod 64) :: zb (0x80 + c / 64 mod 64) :: zb (0x80 + c mod 64) :: r) = 4%nat).
    { unfold rune_size. replace (in_span 0xc2 (0xf0 + c / 262144) 0xdf) with false by (unfold in_span; lia). replace (0xf0 + c / 262144 =? 0xe0) with false by lia. replace (0xf0 + c / 262144 =? 0xed) with false by lia.
      replace (in_span 225 (0xf0 + c / 262144) 239) with false by (unfold in_span; lia). cbn [andb]. unfold conts. cbn [length Nat.leb firstn forallb]. rewrite (K (0x80 + c mod 64)) by lia. rewrite (K (0x80 + c / 64 mod 64)) by lia. rewrite !andb_true_r. rewrite bz_zb_small by lia.
      destruct (0xf0 + c / 262144 =? 0xf0) eqn:A; [replace (in_span 144 (128 + c / 4096 mod 64) 191) with true by (unfold in_span; lia); reflexivity|]. cbn [andb].
      destruct (in_span 241 (240 + c / 262144) 243) eqn:B; [replace (in_span 128 (128 + c / 4096 mod 64) 191) with true by (unfold in_span; lia); reflexivity|]. cbn [andb]. unfold in_span in B.
      replace (0xf0 + c / 262144 =? 0xf4) with true by lia. replace (in_span 128 (128 + c / 4096 mod 64) 143) with true by (unfold in_span; lia). reflexivity. }
    rewrite E. cbn [skipn]. lia.
Qed.
Print Assumptions C98_characters.
(** ** C98b: rows and headings come out as tables, and in a table every field of a column begins after the same number of characters *)
Theorem C98_printed : forall n lines out, (2 <= n)%nat -> Forall (Forall field_ok) lines -> prints RuneCount with_spaces n lines out ->
  tabwriter false (concat (map row_text lines)) = Ok out.
Proof. intros n lines out. exact (tabwriter_prints false n lines out). Qed.
Theorem C98_columns : forall n rows row j, (2 <= n)%nat -> (forall r, In r rows -> length r = n) -> In row rows -> (j < n)%nat ->
  let ws := column_widths RuneCount n rows in
  exists before after, laid_out RuneCount with_spaces ws row = before ++ nth j row [] ++ after /\
    RuneCount before = fold_right Z.add 0 (firstn j ws) /\ (j <> O -> exists x, before = x ++ [x20]) /\
    (forall k, (k < n - 1)%nat -> RuneCount (nth k row []) + 1 <= nth k ws 0).
Proof.
  intros n rows row j Hn HL Hrow Hj ws.
  assert (HW : forall k, (k < n - 1)%nat -> RuneCount (nth k row []) + 1 <= nth k ws 0).
  { intros k Hk. unfold ws, column_widths. rewrite (nth_indep _ 0 (widest RuneCount rows 0 + 1)) by (rewrite map_length, seq_length; lia).
    rewrite (map_nth (fun j => widest RuneCount rows j + 1)), seq_nth by lia. cbn [Nat.add]. unfold widest. clear -Hrow. induction rows as [|r rows IH]; [destruct Hrow|]. cbn [map fold_right]. destruct Hrow as [->|H]; [lia|specialize (IH H); lia]. }
  assert (HWL : length ws = (n - 1)%nat) by (unfold ws, column_widths; rewrite map_length, seq_length; reflexivity).
  assert (HR : length row = n) by (apply HL; exact Hrow). clearbody ws. clear HL Hrow rows.
  assert (G : forall row ws j, (length ws + 1 = length row)%nat -> (j < length row)%nat -> (forall k, (k < length row - 1)%nat -> RuneCount (nth k row []) + 1 <= nth k ws 0) ->
    exists before after, laid_out RuneCount with_spaces ws row = before ++ nth j row [] ++ after /\ RuneCount before = fold_right Z.add 0 (firstn j ws) /\ (j <> O -> exists x, before = x ++ [x20])).
  { clear. induction row as [|f row IH]; intros ws j HL Hj HW; [cbn in Hj; lia|]. destruct j as [|j].
    - cbn [nth]. exists []. cbn [laid_out app]. destruct row as [|g row]; eexists; (split; [reflexivity|split; [reflexivity|intros X; destruct (X eq_refl)]]).
    - destruct row as [|g row]; [cbn [length] in Hj; lia|]. destruct ws as [|w ws]; [cbn [length] in HL; lia|]. destruct (IH ws j) as (b & a & E & C & S); [cbn [length] in *; lia|cbn [length] in *; lia|intros k Hk; exact (HW (Datatypes.S k) ltac:(cbn [length] in *; lia))|].
      pose proof (HW O ltac:(cbn [length]; lia)) as H0. cbn [nth] in H0. pose proof (RuneCount_nonneg f) as HN.
      exists (f ++ with_spaces (RuneCount f) w ++ b), a. split; [|split].
      + change (laid_out RuneCount with_spaces (w :: ws) (f :: g :: row)) with (f ++ with_spaces (RuneCount f) w ++ laid_out RuneCount with_spaces ws (g :: row)). rewrite E. cbn [nth]. rewrite <- !app_assoc. reflexivity.
      + unfold with_spaces. rewrite RuneCount_pad by lia. destruct (w - RuneCount f =? 0) eqn:Z0; [lia|]. rewrite C. cbn [firstn fold_right]. lia.
      + intros _. destruct j as [|j].
        * destruct b as [|x b]; [|exfalso; cbn [firstn fold_right] in C; rewrite RuneCount_cons in C; pose proof (RuneCount_nonneg (skipn (rune_size (bz x) b) (x :: b))); lia].
          exists (f ++ repeat x20 (Z.to_nat (w - RuneCount f) - 1)). rewrite app_nil_r, <- app_assoc. f_equal. unfold with_spaces. replace (Z.to_nat (w - RuneCount f)) with (Datatypes.S (Z.to_nat (w - RuneCount f) - 1)) at 1 by lia. rewrite <- repeat_cons. reflexivity.
        * destruct S as (x & ->); [discriminate|]. exists (f ++ with_spaces (RuneCount f) w ++ x). rewrite <- !app_assoc. reflexivity. }
  destruct (G row ws j) as (b & a & E & C & S); [lia|lia|intros k Hk; apply HW; lia|]. exists b, a. auto.
Qed.
Print Assumptions C98_columns.

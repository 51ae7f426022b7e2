(** tabwriter lays text out as SpecTab says. *)
From Verif Require Import Go GoProofs Tabwriter SpecTab.
From Coq Require Import List ZifyBool ZifyNat.
Ltac Zify.zify_post_hook ::= Z.div_mod_to_equations.

Definition cell_of (f : list byte) : cell := mkCell f (RuneCount f).
Definition line_of (row : list (list byte)) : line := mkLine (map cell_of row) true (length row =? 1)%nat.
Definition last_line : line := mkLine [] false false.

Lemma split_field f : field_ok f -> forall rest cur seg w cells,
  split_text (f ++ rest) false cur seg w cells = split_text rest false (cur ++ f) (seg ++ f) w cells.
Proof.
  induction f as [|c f IH]; intros H rest cur seg w cells; [rewrite !app_nil_r; reflexivity|].
  destruct (H c (or_introl eq_refl)) as (H1 & H2 & H3 & H4 & H5). cbn [app split_text].
  assert (E : forall y, c <> y -> beqb c y = false) by (intros y Hy; destruct (beqb c y) eqn:E; [apply beqb_eq in E; contradiction|reflexivity]).
  rewrite (E _ H1), (E _ H2), (E _ H3), (E _ H4), (E _ H5). cbn [orb]. rewrite IH by (intros x Hx; apply H; right; exact Hx). rewrite <- !app_assoc. reflexivity.
Qed.
Lemma split_row row : row <> [] -> Forall field_ok row -> forall rest cells,
  split_text (row_text row ++ rest) false [] [] 0 cells =
  mkLine (cells ++ map cell_of row) true (length (cells ++ map cell_of row) =? 1)%nat :: split_text rest false [] [] 0 [].
Proof.
  induction row as [|f row IH]; intros HN HF rest cells; [contradiction|]. inversion HF as [|? ? Hf HF']; subst. cbn [row_text]. destruct row as [|g row].
  - rewrite <- app_assoc, split_field by assumption. cbn [app split_text]. reflexivity.
  - rewrite <- app_assoc, split_field by assumption. cbn [app split_text]. change (beqb x09 x09 || beqb x09 x0b) with true. cbn iota.
    rewrite IH by (assumption || discriminate). rewrite <- app_assoc. reflexivity.
Qed.
Lemma split_rows rows : Forall (fun r => r <> [] /\ Forall field_ok r) rows ->
  split_text (concat (map row_text rows)) false [] [] 0 [] = map line_of rows ++ [last_line].
Proof.
  induction 1 as [|r rows [Hr HF] _ IH]; [reflexivity|]. cbn [map concat]. rewrite split_row by assumption. rewrite IH. cbn [app map]. unfold line_of at 2. rewrite map_length. reflexivity.
Qed.

(** ** columns *)
Lemma runs_same b c ls : ls <> [] -> (forall l, In l ls -> in_column c l = b) -> runs c ls = [(b, ls)].
Proof.
  induction ls as [|l ls IH]; intros HN H; [contradiction|]. cbn [runs]. destruct ls as [|m ls]; [cbn [runs]; rewrite (H l (or_introl eq_refl)); reflexivity|].
  rewrite IH by (discriminate || (intros x Hx; apply H; right; exact Hx)). rewrite (H l (or_introl eq_refl)), Bool.eqb_reflx. reflexivity.
Qed.
Lemma runs_tail c ls t : ls <> [] -> (forall l, In l ls -> in_column c l = true) -> in_column c t = false -> runs c (ls ++ [t]) = [(true, ls); (false, [t])].
Proof.
  induction ls as [|l ls IH]; intros HN H HT; [contradiction|]. cbn [app runs]. destruct ls as [|m ls].
  - cbn [app runs]. rewrite HT, (H l (or_introl eq_refl)). reflexivity.
  - rewrite IH by (discriminate || assumption || (intros x Hx; apply H; right; exact Hx)). rewrite (H l (or_introl eq_refl)). reflexivity.
Qed.
Lemma format_block tabs n ls : ls <> [] -> (forall l, In l ls -> length (l_cells l) = n) -> forall d fuel widths, (length widths + d = n - 1)%nat -> (d < fuel)%nat ->
  format fuel tabs widths ls = Ok (write_lines tabs (widths ++ map (fun j => block_width j ls) (seq (length widths) d)) ls).
Proof.
  intros HN HL. induction d as [|d IH]; intros fuel widths HD HF; (destruct fuel as [|fuel]; [lia|]); cbn [format].
  - rewrite (runs_same false) by (assumption || (intros l Hl; unfold in_column; specialize (HL l Hl); apply Nat.ltb_ge; lia)).
    cbn [rbind seq map]. rewrite !app_nil_r. reflexivity.
  - rewrite (runs_same true) by (assumption || (intros l Hl; unfold in_column; specialize (HL l Hl); apply Nat.ltb_lt; lia)).
    rewrite IH by (rewrite ?app_length; cbn [length]; lia). cbn [rbind]. rewrite app_nil_r. rewrite <- app_assoc. cbn [app seq map]. rewrite app_length. cbn [length]. rewrite Nat.add_1_r. reflexivity.
Qed.
Lemma format_group tabs n ls t fuel : (2 <= n)%nat -> (forall l, In l ls -> length (l_cells l) = n) -> (length (l_cells t) <= 1)%nat -> (n < fuel)%nat ->
  format fuel tabs [] (ls ++ [t]) = Ok (write_lines tabs (map (fun j => block_width j ls) (seq 0 (n - 1))) ls ++ write_line tabs [] t).
Proof.
  intros Hn HL HT HF. destruct fuel as [|fuel]; [lia|]. cbn [format length]. assert (T : in_column 0 t = false) by (unfold in_column; apply Nat.ltb_ge; lia).
  destruct ls as [|l0 ls0].
  - cbn [app]. rewrite (runs_same false) by (discriminate || (intros l [<-|[]]; exact T)). cbn [rbind]. unfold write_lines. cbn [map concat]. rewrite !app_nil_r. reflexivity.
  - set (ls := l0 :: ls0) in *. rewrite (runs_tail 0 ls t) by (discriminate || assumption || (intros l Hl; unfold in_column; specialize (HL l Hl); apply Nat.ltb_lt; lia)).
    cbn [app]. rewrite (format_block tabs n ls ltac:(discriminate) HL (n - 2)) by (cbn [length]; lia). cbn [rbind app length]. unfold write_lines at 2. cbn [map concat]. rewrite !app_nil_r.
    replace (n - 1)%nat with (S (n - 2)) by lia. reflexivity.
Qed.
(** ** widths *)
Lemma rune_loop_nonneg fuel : forall l, 0 <= rune_loop fuel l. Proof. induction fuel as [|f IH]; intros [|c l]; cbn [rune_loop]; try lia. specialize (IH (skipn (rune_size (bz c) l) (c :: l))). lia. Qed.
Lemma RuneCount_nonneg l : 0 <= RuneCount l. Proof. apply rune_loop_nonneg. Qed.
Lemma block_width_widest n rows j : (S j < n)%nat -> (forall r, In r rows -> length r = n) -> block_width j (map line_of rows) = widest RuneCount rows j + 1.
Proof.
  intros Hj HL. unfold block_width, widest.
  assert (G : forall rows w0, 1 <= w0 -> (forall r, In r rows -> length r = n) ->
    fold_left (fun width l => match nth_error (l_cells l) j with Some c => if width <? c_width c + 1 then c_width c + 1 else width | None => width end) (map line_of rows) w0 =
    Z.max w0 (fold_right Z.max 0 (map (fun r => RuneCount (nth j r [])) rows) + 1)).
  { clear rows HL. induction rows as [|r rows IH]; intros w0 Hw HL; [cbn; lia|]. cbn [map fold_left fold_right].
    assert (E : nth_error (map cell_of r) j = Some (cell_of (nth j r []))).
    { rewrite nth_error_map, (nth_error_nth' r []) by (rewrite (HL r (or_introl eq_refl)); lia). reflexivity. }
    change (l_cells (line_of r)) with (map cell_of r). rewrite E. cbn [cell_of c_width]. rewrite IH by (try (intros x Hx; apply HL; right; exact Hx); destruct (w0 <? RuneCount (nth j r []) + 1) eqn:X; lia).
    destruct (w0 <? RuneCount (nth j r []) + 1) eqn:X; lia. }
  rewrite G by (assumption || lia). assert (0 <= fold_right Z.max 0 (map (fun r => RuneCount (nth j r [])) rows)) by (clear; induction rows; cbn [map fold_right]; lia). lia.
Qed.
Definition pad_of (tabs : bool) := if tabs then with_tabs else with_spaces.
Lemma padding_pad tabs t w : padding tabs t w = pad_of tabs t w.
Proof. unfold padding, pad_of, with_tabs, with_spaces. destruct tabs; [|reflexivity]. f_equal. f_equal. lia. Qed.
Lemma write_row tabs row : row <> [] -> forall ws, (length ws + 1 = length row)%nat -> write_line tabs ws (line_of row) = laid_out RuneCount (pad_of tabs) ws row.
Proof.
  unfold write_line, line_of. cbn [l_cells l_newline]. induction row as [|f row IH]; intros HN ws HL; [contradiction|]. cbn [map write_cells cell_of c_text c_width laid_out]. destruct row as [|g row].
  - destruct ws as [|w ws]; [|cbn [length] in HL; lia]. cbn [map write_cells]. rewrite app_nil_r. reflexivity.
  - destruct ws as [|w ws]; [cbn [length] in HL; lia|]. cbn [hd tl]. rewrite padding_pad. rewrite <- !app_assoc. f_equal. f_equal. apply IH; [discriminate|cbn [length] in HL |- *; lia].
Qed.
Lemma write_table tabs n rows : (2 <= n)%nat -> (forall r, In r rows -> length r = n) ->
  write_lines tabs (map (fun j => block_width j (map line_of rows)) (seq 0 (n - 1))) (map line_of rows) = tabular RuneCount (pad_of tabs) n rows.
Proof.
  intros Hn HL. unfold write_lines, tabular, column_widths. rewrite map_map.
  replace (map (fun j => block_width j (map line_of rows)) (seq 0 (n - 1))) with (map (fun j => widest RuneCount rows j + 1) (seq 0 (n - 1)))
    by (apply map_ext_in; intros j Hj; apply in_seq in Hj; symmetry; apply (block_width_widest n); [lia|exact HL]).
  f_equal. apply map_ext_in. intros r Hr. apply write_row; [intros ->; specialize (HL _ Hr); cbn in HL; lia|rewrite map_length, seq_length; specialize (HL _ Hr); lia].
Qed.
(** ** flushes *)
Lemma flushes_rows n rows t rest : (2 <= n)%nat -> (forall r, In r rows -> length r = n) -> l_flush t = true -> flushes (map line_of rows ++ t :: rest) = (map line_of rows ++ [t]) :: flushes rest.
Proof.
  intros Hn. induction rows as [|r rows IH]; intros HL HT; cbn [map app flushes]; [rewrite HT; reflexivity|]. unfold line_of at 1. cbn [l_flush]. rewrite (HL r (or_introl eq_refl)).
  destruct (Nat.eqb_spec n 1); [lia|]. rewrite IH by (assumption || (intros x Hx; apply HL; right; exact Hx)). reflexivity.
Qed.
Lemma flushes_last n rows : (2 <= n)%nat -> (forall r, In r rows -> length r = n) -> flushes (map line_of rows ++ [last_line]) = [map line_of rows ++ [last_line]].
Proof.
  intros Hn. induction rows as [|r rows IH]; intros HL; [reflexivity|]. cbn [map app flushes]. unfold line_of at 1. cbn [l_flush]. rewrite (HL r (or_introl eq_refl)).
  destruct (Nat.eqb_spec n 1); [lia|]. rewrite IH by (intros x Hx; apply HL; right; exact Hx). reflexivity.
Qed.
Lemma in_line_of n rows l : (forall r, In r rows -> length r = n) -> In l (map line_of rows) -> length (l_cells l) = n.
Proof. intros HL H. apply in_map_iff in H as (r & <- & Hr). cbn [line_of l_cells]. rewrite map_length. exact (HL r Hr). Qed.
Theorem tabwriter_prints tabs n lines out : (2 <= n)%nat -> Forall (Forall field_ok) lines -> prints RuneCount (pad_of tabs) n lines out ->
  tabwriter tabs (concat (map row_text lines)) = Ok out.
Proof.
  intros Hn HF HP. unfold tabwriter. rewrite split_rows.
  2:{ clear -HP HF Hn. induction HP as [rows HL|rows h rest out HL HP IH].
      - rewrite Forall_forall in HF |- *. intros r Hr. split; [intros ->; specialize (HL _ Hr); cbn in HL; lia|exact (HF r Hr)].
      - rewrite Forall_app in HF. destruct HF as [HF1 HF2]. inversion HF2; subst. apply Forall_app; split; [|constructor; [split; [discriminate|assumption]|apply IH; assumption]].
        rewrite Forall_forall in HF1 |- *. intros r Hr. split; [intros ->; specialize (HL _ Hr); cbn in HL; lia|exact (HF1 r Hr)]. }
  assert (HB : forall F, (n <= F \/ forall r, In r lines -> length r <> n)%nat -> format_all (S F) tabs (flushes (map line_of lines ++ [last_line])) = Ok out).
  { clear HF. induction HP as [rows HL|rows h rest out HL HP IH]; intros F HF.
    - rewrite (flushes_last n) by assumption. cbn [format_all]. destruct rows as [|r0 rows].
      + cbn. reflexivity.
      + assert (n <= F)%nat by (destruct HF as [HF|HF]; [exact HF|exfalso; apply (HF r0 (or_introl eq_refl)); apply HL; left; reflexivity]).
        rewrite (format_group tabs n) by (try assumption; try (intros l Hl; exact (in_line_of n _ l HL Hl)); cbn; lia). cbn [rbind]. rewrite write_table by assumption. cbn. rewrite !app_nil_r. reflexivity.
    - rewrite map_app. cbn [map]. rewrite <- app_assoc. cbn [app]. rewrite (flushes_rows n) by (assumption || reflexivity). cbn [format_all].
      assert (HF' : (n <= F \/ forall r, In r rest -> length r <> n)%nat) by (destruct HF as [HF|HF]; [left; exact HF|right; intros r Hr; apply HF; apply in_or_app; right; right; exact Hr]).
      assert (E : format (S F) tabs [] (map line_of rows ++ [line_of [h]]) = Ok (tabular RuneCount (pad_of tabs) n rows ++ h ++ [x0a])).
      { destruct rows as [|r0 rows].
        - cbn. rewrite ?app_nil_r. reflexivity.
        - assert (n <= F)%nat by (destruct HF as [HF|HF]; [exact HF|exfalso; apply (HF r0 (or_introl eq_refl)); apply HL; left; reflexivity]).
          rewrite (format_group tabs n) by (try assumption; try (intros l Hl; exact (in_line_of n _ l HL Hl)); cbn; lia). rewrite write_table by assumption. f_equal. f_equal. cbn. rewrite ?app_nil_r. reflexivity. }
      rewrite E. cbn [rbind]. rewrite (IH F HF'). cbn [rbind]. f_equal. rewrite <- !app_assoc. reflexivity. }
  apply HB. destruct (le_lt_dec n (length (concat (map row_text lines)))) as [HS|HS]; [left; exact HS|right].
  intros r Hr Hn'. clear -HS Hr Hn' Hn.
  assert (L : forall r : list (list byte), (length r <= length (row_text r))%nat).
  { clear. induction r as [|f r IH]; [cbn; lia|]. cbn [row_text]. destruct r as [|g r]; rewrite app_length; cbn [length] in *; lia. }
  apply in_split in Hr as (a & b & ->). rewrite map_app, concat_app, app_length in HS. cbn [map concat] in HS. rewrite app_length in HS. specialize (L r). lia.
Qed.

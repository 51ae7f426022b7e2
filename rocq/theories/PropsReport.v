(** C99: the report that identify prints. *)
From Verif Require Import Go GoProofs Layout LayoutProofs SpecLayout KeyFmt KeyProofs PropsKey Bolt Store StoreProofs SpecStore Session PropsSession IoUtil Recon ReconCmd PropsRecon PropsReconEx ToString Ls PropsLsEx PropsDisk Uuid PropsUuid Identify PropsIdentify PropsSamples PropsIdentifyAll Cli SpecCli PropsCli PropsWork.
From Verif Require PropsReconAny RangeProofs.
From Verif Require Import Go Store.
From Verif Require Import ToString PropsText Ls PropsLs PropsWork2 Tabwriter SpecTab TabProofs PropsPrint PropsPrintLs.
From Coq Require Import Strings.String.
From Coq Require Import List ZifyBool ZifyNat Permutation.
Ltac Zify.zify_post_hook ::= Z.div_mod_to_equations.

(** the fields of a line *)
Definition report_fields (fixed6 : SpecFloat.spec_float -> list byte) (e : FSEntry) : list (list byte) := [Uuid.String (e_FSID e); dec (e_Count e); fixed6 (e_Entropy e); dec (e_BlockSize e)].
Definition heading : list (list byte) := [str "fsid"%string; str "count"%string; str "entropy"%string; str "block size"%string].
(** an id of 16 bytes, numbers *)
Definition entry_ok (e : FSEntry) : Prop := Datatypes.length (e_FSID e) = 16%nat /\ 0 <= e_Count e /\ 0 <= e_BlockSize e.
(** decimal digits, sign and point: what %.6f may print *)
Definition printable (f : list byte) : Prop := f <> [] /\ field_ok f.

(** reading the text: [cut sep] gives the parts between separators, as the tool cut does; a line's fields are the
    parts that are not empty *)
Fixpoint cut (sep : byte) (l : list byte) : list (list byte) :=
  match l with
  | [] => [[]]
  | c :: r => if beqb c sep then [] :: cut sep r else match cut sep r with w :: ws => (c :: w) :: ws | [] => [[c]] end
  end.
Definition lines_of (out : list byte) : list (list byte) := removelast (cut x0a out).
Definition fields_of (l : list byte) : list (list byte) := filter (fun w => negb (zlen w =? 0)) (cut x09 l).

Lemma hex_byte i : 48 <= bz (hexChar i) <= 102 \/ hexChar i = x00.
Proof.
  unfold hexChar. destruct (Nat.lt_ge_cases (Z.to_nat i) 16) as [H|H]; [|right; apply nth_overflow; exact H]. left.
  assert (G : forall k, (k < 16)%nat -> 48 <= bz (nth k hexChars x00) <= 102) by (do 16 (destruct k as [|k]; [intros _; vm_compute; split; discriminate|]); intros K; lia). exact (G _ H).
Qed.
Lemma hex_ok i : 0 <= i < 16 -> 48 <= bz (hexChar i) <= 102.
Proof.
  intros H. destruct (hex_byte i) as [G|G]; [exact G|]. exfalso. unfold hexChar in G. assert (K : (Z.to_nat i < 16)%nat) by lia. revert G. generalize (Z.to_nat i) K. clear. intros k K.
  do 16 (destruct k as [|k]; [discriminate|]). lia.
Qed.
Lemma uuid_bytes u c : In c (Uuid.String u) -> 45 <= bz c <= 102.
Proof.
  unfold Uuid.String. generalize 0. induction u as [|v r IH]; intros i H; [destruct H|]. cbn [String_loop] in H. pose proof (bz_range v). destruct H as [<-|[<-|H]]; [pose proof (hex_ok (bz v / 16)); lia|pose proof (hex_ok (bz v mod 16)); lia|].
  apply in_app_or in H as [H|H]; [|exact (IH _ H)]. destruct (_ || _); [|destruct H]. destruct H as [<-|[]]. vm_compute. split; discriminate.
Qed.
Lemma field_ok_uuid u : field_ok (Uuid.String u).
Proof. intros c H. apply ok_byte. pose proof (uuid_bytes u c H). lia. Qed.
Lemma RuneCount_ascii_all l : (forall c, In c l -> bz c < 128) -> RuneCount l = zlen l.
Proof. induction l as [|c l IH]; intros H; [reflexivity|]. rewrite RuneCount_ascii by (apply H; left; reflexivity). rewrite IH by (intros x Hx; apply H; right; exact Hx). rewrite zlen_cons. lia. Qed.
Lemma uuid_width u : Datatypes.length u = 16%nat -> RuneCount (Uuid.String u) = 36.
Proof. intros H. rewrite RuneCount_ascii_all by (intros c Hc; pose proof (uuid_bytes u c Hc); lia). unfold zlen. rewrite (proj1 (C32_shape u H)). reflexivity. Qed.
Lemma dec_nonempty n : dec n <> [].
Proof.
  unfold dec. cbn [dec_loop]. destruct (n <? 10); [discriminate|]. assert (G : forall f m acc, acc <> [] -> dec_loop f m acc <> []) by (induction f as [|f IH]; intros m acc H; cbn [dec_loop]; [exact H|]; destruct (m <? 10); [discriminate|]; apply IH; discriminate).
  apply (G 19%nat). discriminate.
Qed.
Lemma report_text fixed6 machine rows : report fixed6 machine rows = tabwriter machine (concat (map row_text ((if machine then [] else [heading]) ++ map (report_fields fixed6) rows))).
Proof.
  unfold report. f_equal. rewrite map_app, concat_app. f_equal; [destruct machine; reflexivity|]. rewrite map_map. apply f_equal. apply map_ext. intros e. unfold report_row, report_fields. cbn [row_text]. repeat (rewrite <- ?app_assoc; cbn [app]). reflexivity.
Qed.
Lemma report_fields_ok fixed6 e : (forall x, printable (fixed6 x)) -> entry_ok e -> Forall field_ok (report_fields fixed6 e) /\ forall f, In f (report_fields fixed6 e) -> f <> [].
Proof.
  intros HF (H1 & H2 & H3). split; [repeat apply Forall_cons; [apply field_ok_uuid|apply field_ok_dec; exact H2|apply HF|apply field_ok_dec; exact H3|apply Forall_nil]|].
  intros f [<-|[<-|[<-|[<-|[]]]]]; [|apply dec_nonempty|apply HF|apply dec_nonempty]. intros E. pose proof (proj1 (C32_shape _ H1)) as L. rewrite E in L. discriminate L.
Qed.
(** C99a: the text *)
Theorem C99_report : forall fixed6 machine rows, (forall x, printable (fixed6 x)) -> Forall entry_ok rows ->
  report fixed6 machine rows = Ok (tabular RuneCount (if machine then with_tabs else with_spaces) 4 ((if machine then [] else [heading]) ++ map (report_fields fixed6) rows)).
Proof.
  intros fixed6 machine rows HF HR. rewrite report_text. replace (if machine then with_tabs else with_spaces) with (pad_of machine) by (destruct machine; reflexivity). apply (tabwriter_prints machine 4); [lia| |apply prints_end].
  - apply Forall_app. split; [destruct machine; [constructor|]; apply Forall_cons; [|constructor]; repeat apply Forall_cons; [apply field_ok_b; reflexivity..|constructor]|].
    apply Forall_forall. intros l Hl. apply in_map_iff in Hl as (e & <- & He). rewrite Forall_forall in HR. apply (report_fields_ok fixed6 e HF (HR e He)).
  - intros r Hr. apply in_app_or in Hr as [Hr|Hr]; [destruct machine; [destruct Hr|destruct Hr as [<-|[]]; reflexivity]|]. apply in_map_iff in Hr as (e & <- & _). reflexivity.
Qed.
(** ** reading it *)
Lemma cut_none sep f : ~ In sep f -> cut sep f = [f].
Proof. induction f as [|c f IH]; intros H; [reflexivity|]. cbn [cut]. destruct (beqb c sep) eqn:E; [apply beqb_eq in E; subst; destruct H; left; reflexivity|]. rewrite IH by (intros X; apply H; right; exact X). reflexivity. Qed.
Lemma cut_sep sep f r : ~ In sep f -> cut sep (f ++ sep :: r) = f :: cut sep r.
Proof.
  induction f as [|c f IH]; intros H; cbn [app cut]; [replace (beqb sep sep) with true by (symmetry; apply beqb_eq; reflexivity); reflexivity|]. destruct (beqb c sep) eqn:E; [apply beqb_eq in E; subst; destruct H; left; reflexivity|].
  rewrite IH by (intros X; apply H; right; exact X). reflexivity.
Qed.
Lemma cut_seps sep k r : cut sep (repeat sep k ++ r) = repeat [] k ++ cut sep r.
Proof. induction k as [|k IH]; [reflexivity|]. cbn [repeat app cut]. replace (beqb sep sep) with true by (symmetry; apply beqb_eq; reflexivity). rewrite IH. reflexivity. Qed.
Lemma with_tabs_pos t w : t + 1 <= w -> with_tabs t w = x09 :: repeat x09 (Z.to_nat ((w + 3) / 4 - t / 4 - 1)).
Proof. intros H. unfold with_tabs. replace (Z.to_nat ((w + 3) / 4 - t / 4)) with (S (Z.to_nat ((w + 3) / 4 - t / 4 - 1))) by lia. reflexivity. Qed.
(** a line without its newline *)
Fixpoint line_body (ws : list Z) (row : list (list byte)) : list byte :=
  match row with
  | [] => []
  | f :: r => match r with [] => f | _ => f ++ with_tabs (RuneCount f) (hd 0 ws) ++ line_body (tl ws) r end
  end.
Lemma body_line ws row : laid_out RuneCount with_tabs ws row = line_body ws row ++ [x0a].
Proof. revert ws. induction row as [|f r IH]; intros ws; [reflexivity|]. cbn [laid_out line_body]. destruct r as [|g r]; [reflexivity|]. rewrite IH, <- !app_assoc. reflexivity. Qed.
Lemma body_no_newline ws row : Forall field_ok row -> ~ In x0a (line_body ws row).
Proof.
  revert ws. induction row as [|f r IH]; intros ws H X; [destruct X|]. inversion H as [|? ? Hf Hr]; subst. cbn [line_body] in X. destruct r as [|g r]; [apply Hf in X; tauto|]. apply in_app_or in X as [X|X]; [apply Hf in X; tauto|].
  apply in_app_or in X as [X|X]; [apply repeat_spec in X; discriminate|]. exact (IH _ Hr X).
Qed.
Lemma body_fields row : forall ws, (Datatypes.length ws + 1 = Datatypes.length row)%nat -> Forall field_ok row -> (forall f, In f row -> f <> []) ->
  (forall k, (k < Datatypes.length ws)%nat -> RuneCount (nth k row []) + 1 <= nth k ws 0) -> fields_of (line_body ws row) = row.
Proof.
  assert (NE : forall f : list byte, f <> [] -> negb (zlen f =? 0) = true) by (intros [|c f] H; [congruence|]; rewrite zlen_cons; pose proof (zlen_nonneg f); lia).
  assert (NT : forall f, field_ok f -> ~ In x09 f) by (intros f H X; apply H in X; tauto).
  induction row as [|f r IH]; intros ws HL HO HN HW; [cbn [Datatypes.length] in HL; lia|]. inversion HO as [|? ? Hf Hr]; subst. cbn [line_body]. destruct r as [|g r].
  - unfold fields_of. rewrite cut_none by (apply NT; exact Hf). cbn [filter]. rewrite NE by (apply HN; left; reflexivity). reflexivity.
  - destruct ws as [|w ws]; [cbn [Datatypes.length] in HL; lia|]. cbn [hd tl]. pose proof (HW O ltac:(cbn [Datatypes.length]; lia)) as H0. cbn [nth] in H0. rewrite with_tabs_pos by lia. unfold fields_of. cbn [app]. rewrite cut_sep by (apply NT; exact Hf). rewrite cut_seps. cbn [filter]. rewrite NE by (apply HN; left; reflexivity). f_equal.
    rewrite filter_app. match goal with |- ?a ++ _ = _ => replace a with (@nil (list byte)) end; [|symmetry; match goal with |- context [repeat [] ?m] => generalize m end; intros m; induction m as [|m IHm]; [reflexivity|exact IHm]].
    cbn [app]. apply (IH ws); [cbn [Datatypes.length] in *; lia|exact Hr|intros x Hx; apply HN; right; exact Hx|]. intros k Hk. exact (HW (S k) ltac:(cbn [Datatypes.length]; lia)).
Qed.
Lemma lines_concat bodies : (forall b, In b bodies -> ~ In x0a b) -> lines_of (concat (map (fun b => b ++ [x0a]) bodies)) = bodies.
Proof.
  intros H. unfold lines_of. assert (G : cut x0a (concat (map (fun b => b ++ [x0a]) bodies)) = bodies ++ [[]]).
  { induction bodies as [|b bodies IH]; [reflexivity|]. cbn [map concat]. rewrite <- app_assoc. cbn [app]. rewrite cut_sep by (apply H; left; reflexivity). rewrite IH by (intros x Hx; apply H; right; exact Hx). reflexivity. }
  rewrite G. apply removelast_last.
Qed.
Lemma widths_ok n rows row k : In row rows -> (k < n - 1)%nat -> RuneCount (nth k row []) + 1 <= nth k (column_widths RuneCount n rows) 0.
Proof.
  intros Hrow Hk. unfold column_widths. rewrite (nth_indep _ 0 (widest RuneCount rows 0 + 1)) by (rewrite map_length, seq_length; lia).
  rewrite (map_nth (fun j => widest RuneCount rows j + 1)), seq_nth by lia. cbn [Nat.add]. unfold widest. clear -Hrow. induction rows as [|r rows IH]; [destruct Hrow|]. cbn [map fold_right]. destruct Hrow as [->|H]; [lia|specialize (IH H); lia].
Qed.
Lemma machine_lines fixed6 rows out : (forall x, printable (fixed6 x)) -> Forall entry_ok rows -> report fixed6 true rows = Ok out ->
  lines_of out = map (fun e => line_body (column_widths RuneCount 4 (map (report_fields fixed6) rows)) (report_fields fixed6 e)) rows.
Proof.
  intros HF HR E. rewrite C99_report in E by assumption. cbn [app] in E. assert (Eo : out = tabular RuneCount with_tabs 4 (map (report_fields fixed6) rows)) by congruence. subst out. unfold tabular. set (ws := column_widths _ _ _). clearbody ws.
  replace (map (laid_out RuneCount with_tabs ws) (map (report_fields fixed6) rows)) with (map (fun b => b ++ [x0a]) (map (fun e => line_body ws (report_fields fixed6 e)) rows)).
  - apply lines_concat. intros b Hb. apply in_map_iff in Hb as (e & <- & He). apply body_no_newline. rewrite Forall_forall in HR. apply (report_fields_ok fixed6 e HF (HR e He)).
  - rewrite !map_map. apply map_ext. intros e. symmetry. apply body_line.
Qed.
(** C99b: with --machine, the fields of the lines are those of the entries ... *)
Theorem C99_machine : forall fixed6 rows out, (forall x, printable (fixed6 x)) -> Forall entry_ok rows -> report fixed6 true rows = Ok out ->
  map fields_of (lines_of out) = map (report_fields fixed6) rows.
Proof.
  intros fixed6 rows out HF HR E. rewrite (machine_lines fixed6 rows out HF HR E), map_map. apply map_ext_in. intros e He. rewrite Forall_forall in HR. destruct (report_fields_ok fixed6 e HF (HR e He)) as [A B].
  apply body_fields; [reflexivity|exact A|exact B|]. intros k Hk. apply widths_ok; [apply in_map; exact He|exact Hk].
Qed.
(** ... and the first two, id and count, can be had with cut *)
Theorem C99_cut : forall fixed6 rows out, (forall x, printable (fixed6 x)) -> Forall entry_ok rows -> report fixed6 true rows = Ok out ->
  map (fun l => firstn 2 (cut x09 l)) (lines_of out) = map (fun e => [Uuid.String (e_FSID e); dec (e_Count e)]) rows.
Proof.
  intros fixed6 rows out HF HR E. rewrite (machine_lines fixed6 rows out HF HR E), map_map. apply map_ext_in. intros e He. rewrite Forall_forall in HR. pose proof (HR e He) as (H1 & H2 & H3).
  set (ws := column_widths RuneCount 4 (map (report_fields fixed6) rows)).
  assert (W0 : hd 0 ws = 37).
  { unfold ws, column_widths. cbn [seq map hd Nat.sub]. assert (G : forall rows, (forall e, In e rows -> entry_ok e) -> rows <> [] -> widest RuneCount (map (report_fields fixed6) rows) 0 = 36).
    { clear. unfold widest. intros rows H HN. destruct rows as [|e rows]; [congruence|]. clear HN. revert e H. induction rows as [|e' rows IH]; intros e H; cbn [map fold_right]; cbn [report_fields nth]; rewrite uuid_width by (apply H; left; reflexivity); [lia|].
      specialize (IH e' (fun x Hx => H x (or_intror Hx))). cbn [map fold_right] in IH. cbn [report_fields nth] in IH. lia. }
    rewrite (G rows HR); [reflexivity|]. intros ->. destruct He. }
  assert (W1 : RuneCount (dec (e_Count e)) + 1 <= nth 1 ws 0) by (apply (widths_ok 4 _ (report_fields fixed6 e) 1); [apply in_map; exact He|cbn; lia]).
  assert (L : exists w ws', tl ws = w :: ws' /\ w = nth 1 ws 0) by (eexists; eexists; split; reflexivity). destruct L as (w & ws' & L1 & L2). clearbody ws.
  assert (NT : forall f, field_ok f -> ~ In x09 f) by (intros f H X; apply H in X; tauto).
  unfold report_fields. cbn [line_body]. rewrite W0, L1. cbn [hd tl]. rewrite uuid_width by exact H1. change (with_tabs 36 37) with [x09]. cbn [app]. rewrite cut_sep by (apply NT, field_ok_uuid). cbn [firstn]. f_equal.
  rewrite with_tabs_pos by lia. cbn [app]. rewrite cut_sep by (apply NT, field_ok_dec; exact H2). reflexivity.
Qed.
Print Assumptions C99_report. Print Assumptions C99_machine. Print Assumptions C99_cut.
(** but not the others: the entropy is not always the third *)
Definition one6 (x : SpecFloat.spec_float) : list byte := str "1.000000"%string.
Definition e_of (b : byte) (n : Z) : FSEntry := mkEntry (repeat b 16) n (SpecFloat.S754_zero false) 16384.
Theorem C99_cut_refuted : exists rows out, Forall entry_ok rows /\ report one6 true rows = Ok out /\ exists e, In e rows /\ nth 2 (cut x09 (nth 1 (lines_of out) [])) [] = [] /\ nth 3 (cut x09 (nth 1 (lines_of out) [])) [] = one6 (e_Entropy e).
Proof.
  exists [e_of x41 12345; e_of x42 9]. eexists. split; [repeat constructor; cbn; lia|]. split; [vm_compute; reflexivity|]. exists (e_of x42 9). split; [right; left; reflexivity|]. split; vm_compute; reflexivity.
Qed.
Lemma identify_rows : forall o1 h g img D wish minb maxb mino h' rows,
  h_dev h img = Some (file_dev D) -> accepted (zlen D) (g_blockSize g) -> room (zlen D) (g_blockSize g) -> 126 <= g_blockSize g -> draws (zlen D) (g_blockSize g) (o_rnd o1) ->
  is_u64 wish -> is_u64 minb -> is_u64 maxb -> (forall m, Permutation (o_order o1 m) m) -> (forall id, o_ent o1 id <> SpecFloat.S754_nan) ->
  btrfscue o1 h g (CIdentify wish minb maxb mino) [img] = mkResult h' (OReport rows) Exit0 -> Forall entry_ok rows.
Proof.
  intros o1 h g img D wish minb maxb mino h' rows Hd Ha HR Hb Hdr Uw Umi Uma HO HE HX.
  destruct (C91_identify_recon o1 h g img D wish minb maxb mino h' rows Hd Ha HR Hb Hdr Uw Umi Uma HO HE HX) as [-> HW].
  apply Forall_forall. intros e He. destruct (HW e He) as ((p & HIn & HLf) & _). clear HW.
    unfold btrfscue in HX. change (args_ok (CIdentify wish minb maxb mino) [img]) with true in HX. cbn [negb] in HX. unfold run_identify in HX. rewrite Hd in HX. cbn [file_dev dev_seek dev_read] in HX.
    destruct (IdentifyFS (o_fuel o1) (o_rnd o1) (o_ent o1) (zlen D, true) (file_reader D) (g_blockSize g) wish minb maxb mino (o_order o1)) as [out| |] eqn:EI; cbn [on_res] in HX; [|discriminate..].
    pose proof (C72_report _ _ _ _ _ _ _ _ _ _ _ Ha HR Hb Hdr Uw Umi Uma HO HE EI) as (rows' & l & -> & _ & _ & _ & _ & HC & _). assert (rows' = rows) as -> by congruence.
    destruct (proj1 (HC (e_FSID e) (e_Count e)) (ex_intro _ e (conj He (conj eq_refl eq_refl)))) as (_ & _ & H0 & _).
    split; [|split; [lia|]].
    - unfold leaf_of in HLf. apply andb_prop in HLf as [H1 _]. apply bytes_eqb_eq in H1. rewrite <- H1. unfold part, block_at, part. rewrite firstn_length, skipn_length, firstn_length, skipn_length. destruct HIn. unfold zlen in *. lia.
    - unfold IdentifyFS in EI. destruct (CheckDeviceSize _ _) as [sz ok]. destruct (negb ok); [congruence|]. destruct (g_blockSize g =? 0); [discriminate|]. cbv zeta in EI. destruct (MakeSampleOffsets _ _ _ _ _) as [ss| |]; [|discriminate..]. cbn [rbind] in EI.
      destruct (sample_loop _ _ _ _) as [hh| |]; [|discriminate..]. cbn [rbind] in EI. destruct hh as [hh|]; [|congruence]. assert (ER : rows = Entries (o_ent o1) mino (o_order o1 hh)) by congruence. rewrite ER in He. apply Entries_In in He as (id & c & _ & _ & ->). cbn [e_BlockSize]. unfold guess. cbv zeta. generalize (f64_add (f64_div (f64_of_Z (BlockSizeSum c)) (f64_of_Z (Count c))) (f64_of_Z 4096)). intros f.
      assert (0 <= f64_to_u32 f) by (destruct f; cbn [f64_to_u32]; try lia; apply u32_range). lia.
Qed.
(** C99c: what identify found on an image, and the ids it prints as arguments of recon *)
Theorem C99_identify : forall o1 h g img D wish minb maxb mino h' rows fixed6,
  h_dev h img = Some (file_dev D) -> accepted (zlen D) (g_blockSize g) -> room (zlen D) (g_blockSize g) -> 126 <= g_blockSize g -> draws (zlen D) (g_blockSize g) (o_rnd o1) ->
  is_u64 wish -> is_u64 minb -> is_u64 maxb -> (forall m, Permutation (o_order o1 m) m) -> (forall id, o_ent o1 id <> SpecFloat.S754_nan) -> (forall x, printable (fixed6 x)) ->
  btrfscue o1 h g (CIdentify wish minb maxb mino) [img] = mkResult h' (OReport rows) Exit0 ->
  exists out, report fixed6 true rows = Ok out /\ (forall machine, exists out', report fixed6 machine rows = Ok out') /\
  forall line, In line (lines_of out) ->
    let t := nth 0 (cut x09 line) [] in
    exists e, In e rows /\ t = Uuid.String (e_FSID e) /\ nth 1 (cut x09 line) [] = dec (e_Count e) /\
    forall o2 a is, no_trouble o2 -> g_metadata g <> [] -> h_db h (g_metadata g) = NoFile -> image_items (e_FSID e) D (g_blockSize g) is ->
    exists h1 b, btrfscue o2 h' g (CRecon (Some t) a) [img] = mkResult h1 ONone Exit0 /\ gained h h1 (g_metadata g) b /\
      forall o k gen v, wf_tuple o k gen -> o <> 2^64 - 1 ->
        stored b o k gen v <-> (exists x i y, is = x ++ i :: y /\ same_tuple i o k gen /\ v = i_item i ++ i_data i /\ forall j, In j y -> ~ same_tuple j o k gen).
Proof.
  intros o1 h g img D wish minb maxb mino h' rows fixed6 Hd Ha HR Hb Hdr Uw Umi Uma HO HE HF HX.
  destruct (C91_identify_recon o1 h g img D wish minb maxb mino h' rows Hd Ha HR Hb Hdr Uw Umi Uma HO HE HX) as [-> HW].
  pose proof (identify_rows o1 h g img D wish minb maxb mino h rows Hd Ha HR Hb Hdr Uw Umi Uma HO HE HX) as HOK.
  pose proof (C99_report fixed6 true rows HF HOK) as E. set (out := tabular _ _ _ _) in E. clearbody out. exists out. split; [exact E|]. split; [intros machine; eexists; apply (C99_report fixed6 machine rows HF HOK)|].
  pose proof (C99_cut fixed6 rows out HF HOK E) as HCut. intros line HL t. apply (in_map (fun l => firstn 2 (cut x09 l))) in HL. rewrite HCut in HL. apply in_map_iff in HL as (e & HL & He). exists e. split; [exact He|].
  assert (H2 : t = Uuid.String (e_FSID e) /\ nth 1 (cut x09 line) [] = dec (e_Count e)).
  { subst t. destruct (cut x09 line) as [|x [|y l]]; cbn [firstn] in HL; [discriminate|discriminate|]. assert (x = Uuid.String (e_FSID e) /\ y = dec (e_Count e)) as [-> ->] by (split; congruence). split; reflexivity. }
  destruct H2 as [-> H2]. split; [reflexivity|]. split; [exact H2|]. exact (proj2 (HW e He)).
Qed.
Print Assumptions C99_identify. Print Assumptions C99_cut_refuted.

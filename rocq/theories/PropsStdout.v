(** C105: what identify prints with --verbose; the lines Physical prints. *)
From Verif Require Import Go GoProofs Layout LayoutProofs SpecLayout StructProofs PropsLayout KeyFmt KeyProofs Bolt Store StoreProofs SpecStore RangeProofs PropsStore PropsRange MkIndex.
From Verif Require Import PropsKey Session PropsSession IoUtil Recon ReconCmd PropsRecon PropsReconEx ToString Ls PropsLsEx PropsDisk Uuid PropsUuid Identify PropsIdentify PropsSamples PropsIdentifyAll Cli SpecCli PropsCli PropsWork.
From Verif Require Import PropsText PropsLs PropsWork2 Tabwriter SpecTab TabProofs PropsPrint PropsPrintLs PropsReport Stdout.
From Coq Require Import Strings.String.
From Coq Require Import List ZifyBool ZifyNat Permutation Sorted.
Import ListNotations.
Ltac Zify.zify_post_hook ::= Z.div_mod_to_equations.

(** ** identify *)
(** without --verbose: the report and nothing else *)
Lemma stdout_quiet : forall fixed6 machine wish minb maxb rows, identify_stdout fixed6 false machine wish minb maxb rows = report fixed6 machine rows.
Proof. intros. unfold identify_stdout. destruct (report fixed6 machine rows); reflexivity. Qed.
Lemma cut_line sep (l r : list byte) : ~ In sep l -> cut sep (l ++ sep :: r) = l :: cut sep r.
Proof. apply cut_sep. Qed.
(** with it: one line in front of the report, which is no line of a table *)
Theorem C105_verbose_partial : forall fixed6 machine wish minb maxb rows out, 0 <= numSamples wish minb maxb -> report fixed6 machine rows = Ok out ->
  exists all first, identify_stdout fixed6 true machine wish minb maxb rows = Ok all /\ lines_of all = first :: lines_of out /\
    first = str "sampling "%string ++ dec (clamp wish minb maxb) ++ str " blocks..."%string /\ fields_of first = [first] /\ snd (Uuid.New first) = false.
Proof.
  intros fixed6 machine wish minb maxb rows out Hn E. unfold identify_stdout. rewrite E. cbn [rbind]. eexists. exists (str "sampling "%string ++ dec (clamp wish minb maxb) ++ str " blocks..."%string). split; [reflexivity|].
  assert (EN : numSamples wish minb maxb = clamp wish minb maxb) by (unfold numSamples, clamp; destruct (wish <? minb); [reflexivity|]; destruct (Z.ltb_spec maxb wish); lia). rewrite EN in *. set (n := clamp wish minb maxb) in *. clearbody n.
  assert (HD : forall c, In c (dec n) -> 48 <= bz c <= 57).
  { intros c Hc. assert (G : forall fuel m acc, 0 <= m -> (forall c, In c acc -> 48 <= bz c <= 57) -> forall c, In c (dec_loop fuel m acc) -> 48 <= bz c <= 57).
    { clear. assert (G : forall m acc, 0 <= m < 10 -> (forall c, In c acc -> 48 <= bz c <= 57) -> forall c, In c (digit_char m :: acc) -> 48 <= bz c <= 57) by (intros m acc Hm HA c [<-|H]; [rewrite digit_bz by lia; lia|exact (HA c H)]).
      induction fuel as [|fuel IH]; intros m acc Hm HA; cbn [dec_loop]; [exact HA|]. destruct (Z.ltb_spec m 10) as [L|L]; [apply G; [lia|exact HA]|]. apply IH; [apply Z.div_pos; lia|]. apply G; [apply Z.mod_pos_bound; lia|exact HA]. }
    revert c Hc. unfold dec. apply G; [exact Hn|intros c []]. }
  set (first := str "sampling "%string ++ dec n ++ str " blocks..."%string).
  assert (HF : forall c, In c first -> 32 <= bz c).
  { intros c Hc. unfold first in Hc. apply in_app_or in Hc as [Hc|Hc]; [|apply in_app_or in Hc as [Hc|Hc]; [specialize (HD c Hc); lia|]]; (assert (A : forallb (fun c => 32 <=? bz c) (str "sampling "%string) = true /\ forallb (fun c => 32 <=? bz c) (str " blocks..."%string) = true) by (split; vm_compute; reflexivity); destruct A as [A1 A2]; rewrite forallb_forall in A1, A2; first [specialize (A1 c Hc)|specialize (A2 c Hc)]; lia). }
  assert (NL : ~ In x0a first) by (intros H; specialize (HF _ H); vm_compute in HF; apply HF; reflexivity).
  assert (NT : ~ In x09 first) by (intros H; specialize (HF _ H); vm_compute in HF; apply HF; reflexivity).
  split; [|split; [reflexivity|split]].
  - assert (ET : Verbosef true (sampling_line n) ++ out = first ++ x0a :: out) by (unfold Verbosef, sampling_line, first; rewrite <- !app_assoc; reflexivity). rewrite ET. unfold lines_of. rewrite cut_line by exact NL.
    destruct (cut x0a out) eqn:EC; [exfalso; clear -EC; destruct out as [|c r]; cbn [cut] in EC; [discriminate|]; destruct (beqb c x0a); [discriminate|]; destruct (cut x0a r); discriminate|]. reflexivity.
  - unfold fields_of. rewrite cut_none by exact NT. cbn [filter]. assert (0 < zlen first) by (unfold first; rewrite zlen_app; pose proof (zlen_nonneg (dec n ++ str " blocks..."%string)); change (zlen (str "sampling "%string)) with 9; lia). replace (zlen first =? 0) with false by lia. reflexivity.
  - unfold Uuid.New, Uuid.Set_. assert (G : DecodeString (remove_dashes first) = None); [|rewrite G; reflexivity]. unfold first, remove_dashes. rewrite filter_app. generalize (filter (fun c => negb (beqb c dash)) (dec n ++ str " blocks..."%string)). intros r. vm_compute. reflexivity.
Qed.
(** The full claim -- with --machine every line of standard output is that of an entry -- fails with --verbose *)
Definition C105_full : Prop := forall fixed6 verbose wish minb maxb rows all line, (forall x, printable (fixed6 x)) -> Forall entry_ok rows ->
  identify_stdout fixed6 verbose true wish minb maxb rows = Ok all -> In line (lines_of all) -> exists e, In e rows /\ fields_of line = report_fields fixed6 e.
Theorem C105_refuted : ~ C105_full.
Proof.
  intros H. assert (HP : forall x : SpecFloat.spec_float, printable ((fun _ => [x30]) x)) by (intros x; split; [discriminate|apply field_ok_b; reflexivity]).
  destruct (C105_verbose_partial (fun _ => [x30]) true 1000 1000 1000000 [] [] ltac:(vm_compute; discriminate) eq_refl) as (all & first & E & L & _).
  destruct (H (fun _ => [x30]) true 1000 1000 1000000 [] all first HP (Forall_nil _) E) as (e & [] & _). rewrite L. left. reflexivity.
Qed.
(** ... and holds without it *)
Theorem C105_machine_partial : forall fixed6 wish minb maxb rows all line, (forall x, printable (fixed6 x)) -> Forall entry_ok rows ->
  identify_stdout fixed6 false true wish minb maxb rows = Ok all -> In line (lines_of all) -> exists e, In e rows /\ fields_of line = report_fields fixed6 e.
Proof.
  intros fixed6 wish minb maxb rows all line HF HR E HL. rewrite stdout_quiet in E. pose proof (C99_machine fixed6 rows all HF HR E) as HM. apply (in_map fields_of) in HL. rewrite HM in HL. apply in_map_iff in HL as (e & HE & He). exists e. auto.
Qed.
(** The warning on standard error: exactly when no id was found often enough in the sampled blocks. *)
Theorem C105_warning : forall fuel rnd ent bs wish minb maxb mino order D rows,
  accepted (zlen D) bs -> room (zlen D) bs -> 126 <= bs -> draws (zlen D) bs rnd ->
  is_u64 wish -> is_u64 minb -> is_u64 maxb -> (forall h, Permutation (order h) h) -> (forall id, ent id <> SpecFloat.S754_nan) ->
  IdentifyFS fuel rnd ent (zlen D, true) (file_reader D) bs wish minb maxb mino order = Ok (Some rows) ->
  exists l, zlen l = numSamples wish minb maxb /\
    (identify_warning mino rows <> [] <-> forall id, ~ PropsIdentify.no_id id -> 0 < zlen (sampled_leaves D bs id l) -> zlen (sampled_leaves D bs id l) < mino).
Proof.
  intros fuel rnd ent bs wish minb maxb mino order D rows Ha HR Hb Hd Uw Umi Uma HO HE EI.
  destruct (C72_report _ _ _ _ _ _ _ _ _ _ _ Ha HR Hb Hd Uw Umi Uma HO HE EI) as (rows' & l & ER & Hl & _ & _ & _ & HC & _). assert (rows' = rows) as -> by congruence. exists l.
  split; [rewrite Hl; unfold numSamples, clamp; destruct (wish <? minb); [reflexivity|]; destruct (Z.ltb_spec maxb wish); lia|].
  destruct rows as [|e rows]; cbn [identify_warning].
  - split; [|intros _; discriminate]. intros _ id Hid H0. destruct (Z.ltb_spec (zlen (sampled_leaves D bs id l)) mino) as [H|H]; [exact H|]. exfalso.
    destruct (proj2 (HC id _) (conj Hid (conj eq_refl (conj H0 H)))) as (e & [] & _).
  - split; [congruence|]. intros H. exfalso. destruct (proj1 (HC (e_FSID e) (e_Count e)) (ex_intro _ e (conj (or_introl eq_refl) (conj eq_refl eq_refl)))) as (A & B & C & D0).
    specialize (H _ A). rewrite B in C, D0. specialize (H C). lia.
Qed.

(** ** Physical *)
(** the output changes nothing else: the call of Store.v *)
Lemma loop_says fuel b : forall r d m p, (x <- range_loop fuel b r d stripe_print (m, p) ;; Ok (fst x)) = range_loop fuel b r d stripe_body m.
Proof.
  induction fuel as [|fuel IH]; intros r d m p; cbn [range_loop]; [reflexivity|]. destruct (HasNext r); [|reflexivity]. unfold stripe_print, stripe_body.
  destruct (Chunk_NumStripes d) as [n| |]; cbn [rbind]; try reflexivity. destruct (n =? 0); cbn [rbind].
  - destruct (Range_Next b r) as [[r' d']| |]; cbn [rbind]; try reflexivity. apply IH.
  - destruct (Chunk_Stripe d 0) as [s| |]; cbn [rbind]; try reflexivity. destruct (r_key r) as [k|]; cbn [rbind]; [|reflexivity]. destruct (Stripe_DevID s) as [x| |]; cbn [rbind]; try reflexivity. destruct (Stripe_Offset s) as [y| |]; cbn [rbind]; try reflexivity.
    destruct (Range_Next b r) as [[r' d']| |]; cbn [rbind]; try reflexivity. apply IH.
Qed.
Theorem C105_physical_same : forall fuel b gen cache logical, (x <- Physical_says fuel b gen cache logical ;; Ok (fst x)) = Physical fuel b gen cache logical.
Proof.
  intros fuel b gen cache logical. unfold Physical_says, Physical. destruct cache as [m|]; cbn [rbind].
  - destruct (Physical_in m logical); reflexivity.
  - unfold build_stripeMap, range_for. destruct (Chunks b gen) as [[r d]| |]; cbn [rbind]; try reflexivity. rewrite <- (loop_says fuel b r d [] []). destruct (range_loop fuel b r d stripe_print ([], [])) as [[m p]| |]; cbn [rbind fst]; try reflexivity. destruct (Physical_in m logical); reflexivity.
Qed.
Definition line_of (g : Z) (x : Z * d_chunk) : list byte := stripe_line (fst x) (st_offset (first_stripe (snd x))) g.
Lemma print_fold b g E : wf_bucket b -> is_u64 g -> forall cs m p,
  (forall f c, In (f, c) cs -> is_u64 f /\ ch_stripes c <> [] /\ zlen (ser (chunk_fields c)) < 65536 /\ (exists v, stored b 3 (mkKey 256 228 f) g v) /\
     forall v, stored b 3 (mkKey 256 228 f) g v -> holds v (chunk_fields c)) ->
  fold_range stripe_print E (yields b 3 g (map (fun f => mkKey 256 228 f) (map fst cs))) (m, p) = Ok (m ++ map entry_of cs, p ++ concat (map (line_of g) cs)).
Proof.
  intros W Hg. induction cs as [|[f c] cs IH]; intros m p H; cbn [map yields fold_range fst].
  - cbn [concat]. rewrite !app_nil_r. reflexivity.
  - destruct (H f c (or_introl eq_refl)) as (Hf & Hns & Hz & [v Hst] & Hh). pose proof Hst as G. apply get_In in G; [|exact W]. rewrite G.
    cbn [fold_range]. destruct (Hh v Hst) as (d & Hd & Hc). rewrite Hd. cbn [rbind].
    destruct (C06_chunk c d Hc) as [(_ & _ & _ & _ & _ & _ & _ & HN & _) HS].
    unfold stripe_print. rewrite HN. cbn [rbind].
    destruct (ch_stripes c) as [|st sts] eqn:Es; [contradiction|].
    replace (zlen (st :: sts) =? 0) with false by (unfold zlen; cbn [List.length]; lia).
    destruct (HS Hz 0%nat st) as (sub & HSub & H1 & H2 & _); [try rewrite Es; reflexivity|].
    change (Z.of_nat 0) with 0 in HSub. rewrite HSub. cbn [rbind r_key]. rewrite H1, H2. cbn [rbind].
    rewrite IH by (intros f' c' Hin; apply H; right; exact Hin). rewrite <- !app_assoc. cbn [app concat map].
    destruct (ik_built 3 (mkKey 256 228 f) g) as (_ & _ & _ & _ & BG & B); [unfold wf_tuple, wf_Key, is_u64, is_u8 in *; cbn; auto; repeat split; lia|].
    rewrite B, ?BG. unfold entry_of at 2, line_of at 2. cbn [fst snd KOffset]. unfold first_stripe. rewrite Es. reflexivity.
Qed.
(** C105.  On one open index the first call of Physical prints a line per chunk, in the order of the
    addresses; no later call prints anything. *)
Theorem C105_stripes : forall b g cs calls fuel res out,
  opened b -> data_ok b 3 -> no_max_gen b 3 -> no_wrap b 3 (mkKey 256 228 (2^64 - 1)) -> is_u64 g -> chunk_map b g cs -> cs <> [] -> (List.length b + 1 < fuel)%nat ->
  Physical_calls fuel b (2^64 - 1) None calls = Ok (res, out) ->
  out = match calls with [] => [] | _ => concat (map (fun x => str "stripe: "%string ++ dec (fst x) ++ str " => "%string ++ dec (st_offset (first_stripe (snd x))) ++ str " @ "%string ++ dec g ++ [x0a]) cs) end.
Proof.
  intros b g cs calls fuel res out Op ND NM NA Hg (HO & HU & HC) Hne Hfuel HR. pose proof Op as [W _]. assert (H3 : is_u64 3) by (unfold is_u64; lia).
  assert (HB : range_for fuel b (Chunks b (2^64 - 1)) stripe_print ([], []) = Ok (map entry_of cs, concat (map (line_of g) cs))).
  { unfold Chunks, RangeAll. change ChunkTreeObjectID with 3. change (KF2 ChunkItemKey FirstFreeObjectID) with (mkKey 256 228 0).
    change (KL2 ChunkItemKey FirstFreeObjectID) with (mkKey 256 228 max64).
    assert (W1 : wf_Key (mkKey 256 228 0)) by (unfold wf_Key, is_u64, is_u8; cbn; lia).
    assert (W2 : wf_Key (mkKey 256 228 max64)) by (unfold wf_Key, is_u64, is_u8, max64; cbn; lia).
    pose proof (range_exact b (2^64 - 1) 3 (mkKey 256 228 0) (mkKey 256 228 max64) fuel (map (fun f => mkKey 256 228 f) (map fst cs)) stripe_print ([], [])
      Op H3 eq_refl W1 W2 max64_u64 ND NM NA (or_introl eq_refl)
      (offs_keys b 3 228 256 (map fst cs) ltac:(unfold is_u8; lia) ltac:(unfold is_u64; lia) HO) Hfuel) as HX.
    assert (HF := fun E => print_fold b g E W Hg cs [] []).
    destruct cs as [|[f0 c0] cs]; [congruence|]. cbn [map fst KType ObjectID] in HX. rewrite !Z.eqb_refl in HX. cbn [andb] in HX.
    destruct HX as (g' & v' & (Hst & Hg' & _) & HX).
    assert (Hf0 : forall f1 c1, In (f1, c1) ((f0, c0) :: cs) -> is_u64 f1 /\ exists v, stored b 3 (mkKey 256 228 f1) g v).
    { intros f1 c1 Hin. assert (Hi : In f1 (map fst ((f0, c0) :: cs))) by (apply in_map_iff; exists (f1, c1); auto).
      apply (proj2 HO) in Hi as ((_ & _ & Hu) & g2 & v2 & Hg2 & Hst2). split; [exact Hu|]. exists v2. rewrite (HU f1 g2 v2 Hu Hg2 Hst2) in Hst2. exact Hst2. }
    assert (g' = g) by (apply (HU f0 g' v'); try assumption; apply (Hf0 f0 c0); left; reflexivity). subst g'.
    rewrite HX. apply HF. intros f1 c1 Hin. destruct (Hf0 f1 c1 Hin) as [A B]. destruct (HC f1 c1 Hin) as (C1 & C2 & C3).
    split; [exact A|]. split; [exact C1|]. split; [exact C2|]. split; [exact B|exact C3]. }
  assert (HQ : forall l m rs q, Physical_calls fuel b (2^64 - 1) (Some m) l = Ok (rs, q) -> q = []).
  { induction l as [|a l IH]; intros m rs q H; cbn [Physical_calls] in H; [congruence|]. unfold Physical_says in H. cbn [rbind] in H. destruct (Physical_in m a) as [x| |]; cbn [rbind] in H; try discriminate.
    destruct (Physical_calls fuel b (2^64 - 1) (Some m) l) as [[rs' q']| |] eqn:E; cbn [rbind] in H; try discriminate. rewrite (IH _ _ _ E) in H. cbn [app] in H. congruence. }
  destruct calls as [|a calls]; cbn [Physical_calls] in HR; [congruence|]. unfold Physical_says in HR. rewrite HB in HR. cbn [rbind] in HR. destruct (Physical_in (map entry_of cs) a) as [x| |]; cbn [rbind] in HR; try discriminate.
  destruct (Physical_calls fuel b (2^64 - 1) (Some (map entry_of cs)) calls) as [[rs' q']| |] eqn:E; cbn [rbind] in HR; try discriminate. rewrite (HQ _ _ _ _ E), app_nil_r in HR.
  assert (out = concat (map (line_of g) cs)) as -> by congruence. reflexivity.
Qed.
(** ** examples *)
Example C105_ex_stripes : opened b28 /\ chunk_map b28 7 [(1000, ch28 70000); (20000, ch28 90000)] /\
  Physical_calls 10 b28 (2^64 - 1) None [1500; 20001; 1500] = Ok ([(1, 70500); (1, 90001); (1, 70500)],
    str "stripe: 1000 => 70000 @ 7"%string ++ [x0a] ++ str "stripe: 20000 => 90000 @ 7"%string ++ [x0a]).
Proof. split; [apply C28_ex|]. split; [apply C28_ex|]. vm_compute. reflexivity. Qed.
Example C105_ex_verbose : exists all, identify_stdout one6 true true 1000 1000 1000000 [e_of x41 12345] = Ok all /\ List.length (lines_of all) = 2%nat /\ nth 0 (lines_of all) [] = str "sampling 1000 blocks..."%string.
Proof. eexists. split; [vm_compute; reflexivity|]. split; vm_compute; reflexivity. Qed.
Print Assumptions C105_verbose_partial. Print Assumptions C105_refuted. Print Assumptions C105_machine_partial. Print Assumptions C105_warning. Print Assumptions C105_physical_same. Print Assumptions C105_stripes.

(** C103: the printed entropies are in order. *)
From Verif Require Import Go GoProofs Layout LayoutProofs SpecLayout KeyFmt KeyProofs PropsKey Bolt Store StoreProofs SpecStore Session PropsSession IoUtil Recon ReconCmd PropsRecon PropsReconEx ToString Ls PropsLsEx PropsDisk Uuid PropsUuid Identify PropsIdentify PropsSamples PropsIdentifyAll Cli SpecCli PropsCli PropsWork.
From Verif Require Import ToString PropsText Ls PropsLs PropsWork2 Tabwriter SpecTab TabProofs PropsPrint PropsPrintLs PropsReport Fixed.
From Coq Require Import Strings.String.
From Coq Require Import ZArith Reals Lia Lra Floats.SpecFloat List Permutation Sorted ZifyBool ZifyNat.
From Verif Require Import PropsEntropy F64Proofs PropsFraction PropsFixed PropsFixedReport.
From Flocq Require Import Core BinarySingleNaN.
Import ListNotations.
Open Scope Z_scope.
#[local] Existing Instance Hprec.
#[local] Existing Instance Hmax.

(** float comparison compares the numbers *)
Lemma compare_value f g c : number f -> number g -> SFcompare f g = Some c -> c = Rcompare (value f) (value g).
Proof.
  intros Hf Hg E. destruct (number_fval f Hf) as (x & -> & Fx & Vx). destruct (number_fval g Hg) as (y & -> & Fy & Vy).
  pose proof (Bcompare_correct 53 1024 x y Fx Fy) as C. unfold Bcompare in C. rewrite E in C. injection C as ->. rewrite !SF2R_B2SF. reflexivity.
Qed.
(** no entropy is less than 0 *)
Lemma entropy_pos log2 d id v : accurate log2 d -> (0 <= d <= / 1024)%R -> log2 (f64_of_Z 1) = S754_zero false -> List.length id = 16%nat -> ShannonEntropy_result log2 id v -> (0 <= value v)%R.
Proof.
  intros HA Hd H1 HL HV. destruct (C103_minus log2 d id v HA Hd H1 HL HV) as [_ HM]. destruct (C103_entropy log2 d id v HA ltac:(lra) HL HV) as [Hn _].
  destruct (sign_SF v) eqn:HS.
  - destruct HM as [x ->]; [destruct (C103_fixed v Hn) as (t & n & E & _); rewrite HS in E; exists t; exact E|].
    destruct HV as (cs & HP & ->). assert (EC : byte_counts (repeat x 16) = [16]) by (destruct x; vm_compute; reflexivity).
    rewrite EC in HP. apply Permutation_sym, Permutation_length_1_inv in HP. subst cs. unfold ShannonEntropy_f64. cbn [entropy_sum]. change (zlen (repeat x 16)) with 16. assert (EQ : f64_div (f64_of_Z 16) (f64_of_Z 16) = f64_of_Z 1) by (vm_compute; reflexivity). rewrite EQ, H1.
    match goal with |- (0 <= value ?t)%R => let t' := eval vm_compute in t in change (0 <= value t')%R end. cbn [SF2R]. lra.
  - destruct v as [s|s| |s m e]; [cbn [SF2R]; lra|destruct Hn; discriminate|destruct Hn; discriminate|]. cbn [sign_SF] in HS. subst s. cbn [SF2R]. left. apply F2R_gt_0. reflexivity.
Qed.
Lemma rows_sorted : forall o1 h g img D wish minb maxb mino h' rows,
  h_dev h img = Some (file_dev D) -> accepted (zlen D) (g_blockSize g) -> room (zlen D) (g_blockSize g) -> 126 <= g_blockSize g -> draws (zlen D) (g_blockSize g) (o_rnd o1) ->
  is_u64 wish -> is_u64 minb -> is_u64 maxb -> (forall m, Permutation (o_order o1 m) m) -> (forall id, o_ent o1 id <> SpecFloat.S754_nan) ->
  btrfscue o1 h g (CIdentify wish minb maxb mino) [img] = mkResult h' (OReport rows) Exit0 ->
  (forall e, In e rows -> e_Entropy e = o_ent o1 (e_FSID e)) /\ StronglySorted before rows.
Proof.
  intros o1 h g img D wish minb maxb mino h' rows Hd Ha HR Hb Hdr Uw Umi Uma HO HE HX.
  unfold btrfscue in HX. change (args_ok (CIdentify wish minb maxb mino) [img]) with true in HX. cbn [negb] in HX. unfold run_identify in HX. rewrite Hd in HX. cbn [file_dev dev_seek dev_read] in HX.
  destruct (IdentifyFS (o_fuel o1) (o_rnd o1) (o_ent o1) (zlen D, true) (file_reader D) (g_blockSize g) wish minb maxb mino (o_order o1)) as [out| |] eqn:EI; cbn [on_res] in HX; [|discriminate..].
  pose proof (C72_report _ _ _ _ _ _ _ _ _ _ _ Ha HR Hb Hdr Uw Umi Uma HO HE EI) as (rows' & l & -> & _ & _ & _ & _ & _ & W1 & _ & W2). assert (rows' = rows) as -> by congruence. split; assumption.
Qed.
Lemma sorted_nth rows : StronglySorted before rows -> forall i j e f, (i < j)%nat -> nth_error rows i = Some e -> nth_error rows j = Some f -> before e f.
Proof.
  intros HSort. induction HSort as [|x l HSl IH HF]; intros i j e f Hij Ne Nf; [destruct i; discriminate|]. destruct j as [|j]; [lia|]. cbn [nth_error] in Nf. destruct i as [|i].
  - injection Ne as ->. rewrite Forall_forall in HF. apply HF. exact (nth_error_In _ _ Nf).
  - cbn [nth_error] in Ne. apply (IH i j); [lia|exact Ne|exact Nf].
Qed.
(** C103f: in the report of identify no line has a greater count than a line above it, nor, where
    the counts are the same, does it show a greater entropy *)
Theorem C103_sorted : forall log2 d o1 h g img D wish minb maxb mino h' rows,
  h_dev h img = Some (file_dev D) -> accepted (zlen D) (g_blockSize g) -> room (zlen D) (g_blockSize g) -> 126 <= g_blockSize g -> draws (zlen D) (g_blockSize g) (o_rnd o1) ->
  is_u64 wish -> is_u64 minb -> is_u64 maxb -> (forall m, Permutation (o_order o1 m) m) ->
  accurate log2 d -> (0 <= d <= / 1024)%R -> log2 (f64_of_Z 1) = S754_zero false ->
  (forall id, o_ent o1 id <> SpecFloat.S754_nan) -> (forall id, List.length id = 16%nat -> ShannonEntropy_result log2 id (o_ent o1 id)) ->
  btrfscue o1 h g (CIdentify wish minb maxb mino) [img] = mkResult h' (OReport rows) Exit0 ->
  exists out, report fixed6 true rows = Ok out /\
    forall i j above below, (i < j)%nat -> nth_error (lines_of out) i = Some above -> nth_error (lines_of out) j = Some below ->
    exists c1 c2 t1 t2 m1 m2,
      nth 1 (fields_of above) [] = dec c1 /\ nth 1 (fields_of below) [] = dec c2 /\
      (nth 2 (fields_of above) [] = t1 \/ nth 2 (fields_of above) [] = x2d :: t1) /\ millionths t1 m1 /\
      (nth 2 (fields_of below) [] = t2 \/ nth 2 (fields_of below) [] = x2d :: t2) /\ millionths t2 m2 /\
      (c2 < c1 \/ c1 = c2 /\ m2 <= m1).
Proof.
  intros log2 d o1 h g img D wish minb maxb mino h' rows Hd Ha HR Hb Hdr Uw Umi Uma HO HA Hdd H1 HE HS HX.
  pose proof (identify_rows o1 h g img D wish minb maxb mino h' rows Hd Ha HR Hb Hdr Uw Umi Uma HO HE HX) as HOK.
  destruct (rows_sorted o1 h g img D wish minb maxb mino h' rows Hd Ha HR Hb Hdr Uw Umi Uma HO HE HX) as [HEnt HSort]. pose proof (C99_report fixed6 true rows fixed6_ok HOK) as E. set (out := tabular _ _ _ _) in E. clearbody out. exists out. split; [exact E|].
  pose proof (C99_machine fixed6 rows out fixed6_ok HOK E) as HM. intros i j a b Hij Hi Hj.
  assert (G : forall k l, nth_error (lines_of out) k = Some l -> exists e, nth_error rows k = Some e /\ In e rows /\ fields_of l = report_fields fixed6 e).
  { intros k l Hk. pose proof (map_nth_error fields_of k _ Hk) as HK. rewrite HM in HK. destruct (nth_error rows k) as [e|] eqn:Ek.
    - exists e. split; [reflexivity|]. split; [exact (nth_error_In _ _ Ek)|]. rewrite (map_nth_error _ _ _ Ek) in HK. congruence.
    - exfalso. assert (L : nth_error (map (report_fields fixed6) rows) k = None) by (apply nth_error_None; rewrite map_length; apply nth_error_None; exact Ek). congruence. }
  destruct (G _ _ Hi) as (e & Ne & Ie & Fe). destruct (G _ _ Hj) as (f & Nf & If & Ff). clear G HM Hi Hj E.
  pose proof (sorted_nth rows HSort i j e f Hij Ne Nf) as HB.
  assert (V : forall x, In x rows -> number (e_Entropy x) /\ (0 <= value (e_Entropy x))%R /\ exists t n, (fixed6 (e_Entropy x) = t \/ fixed6 (e_Entropy x) = x2d :: t) /\ millionths t n).
  { intros x Hx. rewrite Forall_forall in HOK. destruct (HOK x Hx) as (L & _). rewrite (HEnt x Hx). destruct (C103_entropy log2 d _ _ HA ltac:(lra) L (HS _ L)) as [N _]. split; [exact N|]. split; [exact (entropy_pos log2 d _ _ HA Hdd H1 L (HS _ L))|].
    destruct (C103_fixed _ N) as (t & n & E & M & _). exists t, n. split; [rewrite E; destruct (sign_SF _); auto|exact M]. }
  destruct (V e Ie) as (Ve & Pe & t1 & m1 & T1 & M1). destruct (V f If) as (Vf & Pf & t2 & m2 & T2 & M2). exists (e_Count e), (e_Count f), t1, t2, m1, m2. rewrite Fe, Ff. cbn [report_fields nth].
  repeat (split; [first [reflexivity|assumption]|]). destruct HB as [HB|(HB1 & HB2)]; [left; exact HB|]. right. split; [exact HB1|].
  apply (C103_order (e_Entropy f) (e_Entropy e) t2 t1 m2 m1 Vf Ve); [|exact T2|exact T1|exact M2|exact M1]. split; [exact Pf|]. destruct HB2 as [C|[C _]]; apply (compare_value _ _ _ Vf Ve) in C; symmetry in C; [apply Rcompare_Lt_inv in C; lra|apply Rcompare_Eq_inv in C; lra].
Qed.
(** C103g: of two entries with the same count the one listed first has the greater Shannon entropy, but for twice the error
    of the computation -- whatever the order in which Go iterates its maps *)
Theorem C103_true_order : forall log2 d o1 h g img D wish minb maxb mino h' rows,
  h_dev h img = Some (file_dev D) -> accepted (zlen D) (g_blockSize g) -> room (zlen D) (g_blockSize g) -> 126 <= g_blockSize g -> draws (zlen D) (g_blockSize g) (o_rnd o1) ->
  is_u64 wish -> is_u64 minb -> is_u64 maxb -> (forall m, Permutation (o_order o1 m) m) -> (forall id, o_ent o1 id <> SpecFloat.S754_nan) ->
  accurate log2 d -> (0 <= d <= / 2)%R -> (forall id, List.length id = 16%nat -> ShannonEntropy_result log2 id (o_ent o1 id)) ->
  btrfscue o1 h g (CIdentify wish minb maxb mino) [img] = mkResult h' (OReport rows) Exit0 ->
  forall i j e f, (i < j)%nat -> nth_error rows i = Some e -> nth_error rows j = Some f ->
    e_Count f < e_Count e \/ e_Count e = e_Count f /\ (H (e_FSID f) <= H (e_FSID e) + 2 * (d + bpow radix2 (-45)))%R.
Proof.
  intros log2 d o1 h g img D wish minb maxb mino h' rows Hd Ha HR Hb Hdr Uw Umi Uma HO HE HA Hdd HS HX i j e f Hij Ne Nf.
  pose proof (identify_rows o1 h g img D wish minb maxb mino h' rows Hd Ha HR Hb Hdr Uw Umi Uma HO HE HX) as HOK. destruct (rows_sorted o1 h g img D wish minb maxb mino h' rows Hd Ha HR Hb Hdr Uw Umi Uma HO HE HX) as [HEnt HSort].
  pose proof (sorted_nth rows HSort i j e f Hij Ne Nf) as HB. apply nth_error_In in Ne, Nf.
  assert (V : forall x, In x rows -> number (e_Entropy x) /\ (Rabs (value (e_Entropy x) - H (e_FSID x)) <= d + bpow radix2 (-45))%R).
  { intros x Hx. rewrite Forall_forall in HOK. destruct (HOK x Hx) as (L & _). rewrite (HEnt x Hx). exact (C103_entropy log2 d _ _ HA Hdd L (HS _ L)). }
  destruct (V e Ne) as [Ve Ee]. destruct (V f Nf) as [Vf Ef]. apply Rabs_le_inv in Ee, Ef. destruct HB as [HB|(HB1 & HB2)]; [left; exact HB|]. right. split; [exact HB1|].
  destruct HB2 as [C|[C _]]; apply (compare_value _ _ _ Vf Ve) in C; symmetry in C; [apply Rcompare_Lt_inv in C|apply Rcompare_Eq_inv in C]; lra.
Qed.
Print Assumptions C103_sorted. Print Assumptions C103_true_order.

(** C103: the entropies in the report of identify, and examples. *)
From Verif Require Import Go GoProofs Layout LayoutProofs SpecLayout KeyFmt KeyProofs PropsKey Bolt Store StoreProofs SpecStore Session PropsSession IoUtil Recon ReconCmd PropsRecon PropsReconEx ToString Ls PropsLsEx PropsDisk Uuid PropsUuid Identify PropsIdentify PropsSamples PropsIdentifyAll Cli SpecCli PropsCli PropsWork.
From Verif Require Import ToString PropsText Ls PropsLs PropsWork2 Tabwriter SpecTab TabProofs PropsPrint PropsPrintLs PropsReport Fixed.
From Coq Require Import Strings.String.
From Coq Require Import ZArith Reals Lia Lra Floats.SpecFloat List Permutation ZifyBool ZifyNat.
From Verif Require Import PropsEntropy F64Proofs PropsFraction PropsFixed.
From Flocq Require Import Core BinarySingleNaN.
Import ListNotations.
Open Scope Z_scope.
#[local] Existing Instance Hprec.
#[local] Existing Instance Hmax.

Lemma field_ok_loop : forall fuel n acc, 0 <= n -> field_ok acc -> field_ok (dec_loop fuel n acc).
Proof.
  assert (G : forall m acc, 0 <= m < 10 -> field_ok acc -> field_ok (digit_char m :: acc)) by (intros m acc Hm HA c [<-|H]; [apply ok_byte; rewrite digit_bz by lia; lia|exact (HA c H)]).
  induction fuel as [|fuel IH]; intros n acc Hn HA; cbn [dec_loop]; [exact HA|]. destruct (Z.ltb_spec n 10) as [L|L]; [apply G; [lia|exact HA]|]. apply IH; [apply Z.div_pos; lia|]. apply G; [apply Z.mod_pos_bound; lia|exact HA].
Qed.
Lemma fixed6_ok x : printable (fixed6 x).
Proof.
  assert (M : forall s, field_ok (minus s)) by (intros [|]; apply field_ok_b; reflexivity).
  destruct x as [s|s| |s m e]; cbn [fixed6].
  - split; [destruct s; discriminate|destruct s; apply field_ok_b; reflexivity].
  - split; [destruct s; discriminate|destruct s; apply field_ok_b; reflexivity].
  - split; [discriminate|apply field_ok_b; reflexivity].
  - rewrite (finite_printed s m e). pose proof (printed_pos (S754_finite s m e)) as HP. set (n := printed _) in *. clearbody n. split.
    + intros E. apply app_eq_nil in E as [_ E]. apply app_eq_nil in E as [_ E]. discriminate E.
    + apply field_ok_app; [apply M|]. apply field_ok_app; [apply field_ok_loop; [apply Z.div_pos; lia|intros c []]|]. intros c [<-|Hc]; [apply ok_byte; vm_compute; split; [discriminate|reflexivity]|]. revert c Hc. unfold six. apply field_ok_app.
      * intros c Hc. apply repeat_spec in Hc as ->. apply ok_byte. vm_compute. split; [discriminate|reflexivity].
      * apply field_ok_loop; [apply Z.mod_pos_bound; lia|intros c []].
Qed.
(** C103e: identify's report of an image, line by line: the entropy in the third column is that of the id in the first *)
Theorem C103_report : forall log2 d o1 h g img D wish minb maxb mino h' rows,
  h_dev h img = Some (file_dev D) -> accepted (zlen D) (g_blockSize g) -> room (zlen D) (g_blockSize g) -> 126 <= g_blockSize g -> draws (zlen D) (g_blockSize g) (o_rnd o1) ->
  is_u64 wish -> is_u64 minb -> is_u64 maxb -> (forall m, Permutation (o_order o1 m) m) -> (forall id, o_ent o1 id <> SpecFloat.S754_nan) ->
  accurate log2 d -> (0 <= d <= / 2)%R -> (forall id, List.length id = 16%nat -> ShannonEntropy_result log2 id (o_ent o1 id)) ->
  btrfscue o1 h g (CIdentify wish minb maxb mino) [img] = mkResult h' (OReport rows) Exit0 ->
  exists out, report fixed6 true rows = Ok out /\
    Forall2 (fun line e => exists t, fields_of line = [Uuid.String (e_FSID e); dec (e_Count e); t; dec (e_BlockSize e)] /\
      exists u n, (t = u \/ t = x2d :: u) /\ millionths u n /\ (Rabs (IZR n / 1000000 - H (e_FSID e)) <= / 2000000 + d + bpow radix2 (-45))%R) (lines_of out) rows.
Proof.
  intros log2 d o1 h g img D wish minb maxb mino h' rows Hd Ha HR Hb Hdr Uw Umi Uma HO HE HA Hdd HS HX.
  pose proof (identify_rows o1 h g img D wish minb maxb mino h' rows Hd Ha HR Hb Hdr Uw Umi Uma HO HE HX) as HOK.
  assert (HEnt : forall e, In e rows -> e_Entropy e = o_ent o1 (e_FSID e)).
  { intros e He. clear HOK HS HA. unfold btrfscue in HX. change (args_ok (CIdentify wish minb maxb mino) [img]) with true in HX. cbn [negb] in HX. unfold run_identify in HX. rewrite Hd in HX. cbn [file_dev dev_seek dev_read] in HX.
    destruct (IdentifyFS (o_fuel o1) (o_rnd o1) (o_ent o1) (zlen D, true) (file_reader D) (g_blockSize g) wish minb maxb mino (o_order o1)) as [out| |] eqn:EI; cbn [on_res] in HX; [|discriminate..].
    pose proof (C72_report _ _ _ _ _ _ _ _ _ _ _ Ha HR Hb Hdr Uw Umi Uma HO HE EI) as (rows' & l & -> & _). assert (rows' = rows) as -> by congruence.
    unfold IdentifyFS in EI. destruct (CheckDeviceSize _ _) as [sz ok]. destruct (negb ok); [congruence|]. destruct (g_blockSize g =? 0); [discriminate|]. cbv zeta in EI. destruct (MakeSampleOffsets _ _ _ _ _) as [ss| |]; [|discriminate..]. cbn [rbind] in EI.
    destruct (sample_loop _ _ _ _) as [hh| |]; [|discriminate..]. cbn [rbind] in EI. destruct hh as [hh|]; [|congruence]. assert (ER : rows = Entries (o_ent o1) mino (o_order o1 hh)) by congruence. rewrite ER in He. apply Entries_In in He as (id & c & _ & _ & ->). reflexivity. }
  pose proof (C99_report fixed6 true rows fixed6_ok HOK) as E. set (out := tabular _ _ _ _) in E. clearbody out. exists out. split; [exact E|].
  pose proof (C99_machine fixed6 rows out fixed6_ok HOK E) as HM. clear - HM HOK HEnt HS HA Hdd.
  revert HM HOK HEnt. generalize (lines_of out). induction rows as [|e rows IH]; intros ls HM HOK HEnt.
  - destruct ls; [constructor|discriminate HM].
  - destruct ls as [|l ls]; [discriminate HM|]. cbn [map] in HM. assert (HM1 : fields_of l = report_fields fixed6 e) by congruence. assert (HM2 : map fields_of ls = map (report_fields fixed6) rows) by congruence. inversion HOK as [|? ? HK HOK']; subst. constructor.
    + exists (fixed6 (e_Entropy e)). split; [exact HM1|]. apply (C103_printed log2 d (e_FSID e) (e_Entropy e) HA Hdd); [apply HK|]. rewrite HEnt by (left; reflexivity). apply HS. apply HK.
    + apply IH; [exact HM2|exact HOK'|]. intros x Hx. apply HEnt. right. exact Hx.
Qed.
(** ** examples *)
(** a logarithm good to 2^-20 *)
Definition log2_cut (x : spec_float) : spec_float := SpecFloat.binary_normalize 53 1024 (Zfloor (log2R (value x) * bpow radix2 20)) (-20) false.
Lemma log2_cut_accurate : accurate log2_cut (bpow radix2 (-20)).
Proof.
  intros x Hx HV. pose proof (log2R_range (value x) HV) as RL. unfold log2_cut. set (r := log2R (value x)) in *. assert (B20 : bpow radix2 20 = 1048576%R) by reflexivity. assert (B20' : bpow radix2 (-20) = (/ 1048576)%R) by reflexivity.
  pose proof (Zfloor_lb (r * bpow radix2 20)) as F1. pose proof (Zfloor_ub (r * bpow radix2 20)) as F2. rewrite B20 in *. set (z := Zfloor (r * 1048576)) in *.
  assert (Z1 : -4194305 <= z <= 0) by (split; [apply le_IZR; lra|apply le_IZR; lra]).
  assert (Q : fval (SpecFloat.binary_normalize 53 1024 z (-20) false) (IZR z * bpow radix2 (-20))%R).
  { rewrite binary_normalize_equiv. pose proof (binary_normalize_correct 53 1024 Hprec Hmax mode_NE z (-20) false) as C. cbv zeta in C. assert (V : F2R (Float radix2 z (-20)) = (IZR z * bpow radix2 (-20))%R) by reflexivity. rewrite V in C.
    change (round radix2 (SpecFloat.fexp 53 1024) (round_mode mode_NE) (IZR z * bpow radix2 (-20))) with (rnd (IZR z * bpow radix2 (-20))) in C. assert (G : rnd (IZR z * bpow radix2 (-20)) = (IZR z * bpow radix2 (-20))%R) by (apply rnd_id, fmt_Z_scaled; lia).
    assert (A : (Rabs (IZR z * bpow radix2 (-20)) <= 8)%R) by (rewrite B20'; apply Rabs_le; assert (IZR (-4194305) <= IZR z <= IZR 0)%R by (split; apply IZR_le; lia); lra).
    rewrite rnd_fits in C by (eapply Rle_trans; [exact A|apply IZR_le; lia]). destruct C as (C1 & C2 & _). eexists. split; [reflexivity|]. split; [exact C2|]. rewrite C1. exact G. }
  destruct (fval_number _ _ Q) as [N V]. split; [exact N|]. rewrite V, B20'. apply Rabs_le. lra.
Qed.
Lemma log2_cut_one : log2_cut (f64_of_Z 1) = S754_zero false.
Proof.
  unfold log2_cut. replace (log2R (value (f64_of_Z 1)) * bpow radix2 20)%R with 0%R; [rewrite (Zfloor_IZR 0); reflexivity|]. destruct (f64_of_Z_val 1 ltac:(lia)) as (b & -> & _ & E). rewrite SF2R_B2SF, E. unfold log2R. rewrite ln_1. lra.
Qed.
(** sixteen different bytes: 4 bits; sixteen times the same one: 0, printed with a minus *)
Definition id_all : list byte := map zb (map Z.of_nat (seq 0 16)).
Example C103_ex : accurate log2_cut (bpow radix2 (-20)) /\ (0 <= bpow radix2 (-20) <= / 1024)%R /\ log2_cut (f64_of_Z 1) = S754_zero false /\
  (exists v t n, ShannonEntropy_result log2_cut id_all v /\ fixed6 v = t /\ millionths t n /\ 3999990 <= n <= 4000010) /\
  (exists v, ShannonEntropy_result log2_cut (repeat x11 16) v /\ fixed6 v = str "-0.000000"%string).
Proof.
  assert (B : (bpow radix2 (-20) = / 1048576)%R) by reflexivity. assert (HB : (0 <= bpow radix2 (-20) <= / 1024)%R) by (rewrite B; lra). split; [exact log2_cut_accurate|]. split; [exact HB|]. split; [exact log2_cut_one|]. split.
  - set (v := ShannonEntropy_f64 log2_cut (zlen id_all) (byte_counts id_all)). assert (HV : ShannonEntropy_result log2_cut id_all v) by (exists (byte_counts id_all); split; reflexivity).
    destruct (C103_printed log2_cut _ id_all v log2_cut_accurate ltac:(lra) eq_refl HV) as (t & n & HT & HM & HE). exists v, t, n. split; [exact HV|]. split.
    + destruct HT as [HT|HT]; [exact HT|]. exfalso. destruct (proj2 (C103_minus log2_cut _ id_all v log2_cut_accurate HB log2_cut_one eq_refl HV) (ex_intro _ t HT)) as [x Hx]. destruct x; discriminate Hx.
    + split; [exact HM|]. assert (H4 : H id_all = 4%R).
      { rewrite H_nodup. assert (HN : nodup Byte.byte_eq_dec id_all = id_all) by reflexivity. rewrite HN. rewrite (rsum_ext _ (fun _ => (/ 4)%R)).
        - rewrite rsum_const. replace (INR (List.length id_all)) with 16%R by (change (List.length id_all) with 16%nat; cbn; lra). lra.
        - intros x Hx. assert (S : share id_all x = (/ 16)%R). { unfold share. assert (HC : count_occ Byte.byte_eq_dec id_all x = 1%nat) by (cbn in Hx; intuition subst; reflexivity). rewrite HC. change (List.length id_all) with 16%nat. cbn. lra. }
          rewrite S. assert (L : log2R (/ / 16) = 4%R). { unfold log2R. rewrite Rinv_inv. pose proof ln2_pos. replace 16%R with (2 * 2 * (2 * 2))%R by lra. rewrite !ln_mult by lra. field. lra. } rewrite L. lra. }
      rewrite H4, B in HE. assert (P : (bpow radix2 (-45) <= / 1048576)%R) by (rewrite <- B; apply bpow_le; lia). apply Rabs_le_inv in HE. split; apply le_IZR; lra.
  - set (v := ShannonEntropy_f64 log2_cut (zlen (repeat x11 16)) (byte_counts (repeat x11 16))). assert (HV : ShannonEntropy_result log2_cut (repeat x11 16) v) by (exists (byte_counts (repeat x11 16)); split; reflexivity). exists v. split; [exact HV|].
    apply (C103_minus log2_cut _ (repeat x11 16) v log2_cut_accurate HB log2_cut_one eq_refl HV). exists x11. reflexivity.
Qed.
(** thirds, a tie, and small and big numbers *)
Example C103_ex_text : fixed6 (f64_div (f64_of_Z 2) (f64_of_Z 3)) = str "0.666667"%string /\ fixed6 (f64_div (f64_of_Z 1) (f64_of_Z 128)) = str "0.007812"%string /\ fixed6 (f64_div (f64_of_Z 3) (f64_of_Z 128)) = str "0.023438"%string /\
  fixed6 (f64_div (f64_of_Z (-1)) (f64_of_Z (2^40))) = str "-0.000000"%string /\ fixed6 (f64_of_Z (2^70)) = str "1180591620717411303424.000000"%string.
Proof. repeat split; vm_compute; reflexivity. Qed.
Print Assumptions C103_report. Print Assumptions C103_ex.

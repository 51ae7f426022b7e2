(** C98: examples, and names that are not printed in their column. *)
From Verif Require Import Go GoProofs Layout LayoutProofs SpecLayout KeyFmt Bolt Store Session IoUtil Recon ReconCmd PropsRecon PropsReconEx MkfsImage.
From Verif Require Import PropsPath ToString PropsText Fs Recover SpecContent SpecTree SpecDisk PropsDisk PropsDiskEx Rescue PropsRescueNode PropsRecoverEx.
From Verif Require Import Path Ls PropsLs PropsLsEx PropsLsDisk PropsLsDiskEx Uuid PropsUuid Cli SpecCli PropsCli PropsCliEx PropsWork Tabwriter SpecTab TabProofs PropsPrint PropsPrintLs.
From Coq Require Import Strings.String.
From Coq Require Import List ZifyBool ZifyNat Permutation.

(** the tree of C61, "ls --recursive": the missing inode's row has ten question marks and the mode of y is shown *)
Example C98_ex_text : exists files dirs, doListFiles no_time isort (fun _ _ => Ok None) 9 (q_of (fun _ => c61) ino1) true true [] = Ok (files, [], dirs) /\
  ls_printed files dirs = Ok (str "258 -rw-r--r-- 1 1000 1000 1234567 T y"%string ++ [x0a] ++ str "257 d????????? ? ?    ?    ?       ? x"%string ++ [x0a] ++ str "x:"%string ++ [x0a] ++ str "259 -????????? ? ? ? ? ? x"%string ++ [x0a]).
Proof. eexists; eexists. split; [vm_compute; reflexivity|vm_compute; reflexivity]. Qed.
(** what the theorem says about it *)
Lemma no_time_ok t : field_ok (no_time t). Proof. apply field_ok_b. reflexivity. Qed.
Lemma c61_names dir d : In d (c61 dir) -> field_ok (di_name d).
Proof. unfold c61. destruct (dir =? 256); [|destruct (dir =? 257)]; cbn [In]; intuition subst; apply field_ok_b; reflexivity. Qed.
Example C98_ex : exists fuel0 lines out, Forall2 (ls_lines no_time (ino1 5) true c61 true) [256] lines /\ ls_output true [] (concat lines) out /\ forall fuel, (fuel0 <= fuel)%nat ->
  exists files dirs, doListFiles no_time isort (fun _ _ => Ok None) fuel (q_of (fun _ => c61) ino1) true true [] = Ok (files, [], dirs) /\ ls_printed files dirs = Ok out.
Proof.
  apply (C98_ls no_time isort (fun _ _ => Ok None) (fun _ => None) (q_of (fun _ => c61) ino1) (ino1 5) c61 true true [] isort_sorter); [intros p; reflexivity|apply ino1_ok|exact c61_holds|exact no_time_ok|exact c61_names|discriminate|].
  intros _ d [<-|[]]. exact c61_acc.
Qed.
(** and from an image *)
Lemma ls_names dir d : In d (ls_contents dir) -> field_ok (di_name d).
Proof. unfold ls_contents. destruct (dir =? 256); [|destruct (dir =? 257)]; cbn [In]; intuition subst; apply field_ok_b; reflexivity. Qed.
Definition o_ls (rfuel : nat) : oracle := mkOracle 0 0 rfuel true true (fun _ _ => true) E0 true (fun _ => 0) (fun _ => SpecFloat.S754_zero false) (fun m => m) isort no_time.
#[local] Opaque id0 ls_blocks ls_is d_cs.
Example C98_ex_image : forall N, enough N -> let h := host_with (file_dev (image_of 4096 ls_blocks N)) NoFile in
  exists (h1 : host) (b : bucket), btrfscue (o_of 0 0 0 (fun _ => 0)) h g_m (CRecon (Some (Uuid.String id0)) false) [p_i] = mkResult h1 ONone Exit0 /\
  forall rfuel, (Datatypes.length b + 1 < rfuel)%nat ->
  exists n lines out, Forall2 (ls_lines no_time ls_inodes true ls_contents true) [256] lines /\ ls_output true [] (concat lines) out /\ forall fuel, (n <= fuel)%nat ->
    exists files dirs, btrfscue (with_fuel (o_ls rfuel) fuel) h1 g_m (CLs true true) [] = mkResult h1 (OListing files [] dirs) Exit0 /\ ls_printed files dirs = Ok out.
Proof.
  intros N HN h. destruct (l_scan N HN) as [HB HI].
  destruct (C98_recon_ls (o_of 0 0 0 (fun _ => 0)) h g_m (Uuid.String id0) id0 false p_i (image_of 4096 ls_blocks N) ls_is d_cs ls_contents ls_inodes (trouble0 0 0 0 _) (host_dev _ _) pm_ne eq_refl HB ltac:(cbn; lia) spells_id0 id0_len id0_nonzero HI l_orderly l_chunks l_contents l_inodes l_plain ls_names) as (h1 & b & R1 & _ & R3).
  exists h1, b. split; [exact R1|]. intros rfuel Hr. apply (R3 (o_ls rfuel) g_m true true [] eq_refl Hr isort_sorter no_time_ok). intros _ d [<-|[]]. exact l_acc.
Qed.
Print Assumptions C98_ex_image.
(** ** names with other bytes *)
Definition dir_with (names : list (list byte)) (o d : Z) : list d_dir_item := if (o =? 5) && (d =? 256) then map (mkdi 258 1 1) names else [].
Definition no_inodes (o i : Z) : option d_inode := None.
Definition prints_dir (names : list (list byte)) : Res (list byte) :=
  ' (a, _, b) <- doListFiles no_time isort (fun _ _ => Ok None) 9 (q_of (dir_with names) no_inodes) false false [] ;; ls_printed a b.
(** a name may hold a newline, and whole lines after it: a directory of one file looks like one of two *)
Definition forged : list byte := [x61; x0a] ++ str "-?????????"%string ++ [x09; x3f; x09; x3f; x09; x3f; x09; x3f; x09; x3f; x09; x62].
Theorem C98_newline_refuted : exists n1 n2, Datatypes.length n1 = 1%nat /\ Datatypes.length n2 = 2%nat /\ dir_holds (q_of (dir_with n1) no_inodes) 5 256 (dir_with n1 5 256) /\ dir_holds (q_of (dir_with n2) no_inodes) 5 256 (dir_with n2 5 256) /\
  prints_dir n1 = prints_dir n2 /\ exists out, prints_dir n1 = Ok out.
Proof.
  exists [forged], [[x61]; [x62]]. repeat apply conj; try reflexivity; try (apply q_of_holds; vm_compute; reflexivity). eexists. vm_compute. reflexivity.
Qed.
(** a name with a byte 0xff (which is not UTF-8): the lines after it are no longer split into fields, so that their
    tabs are printed and nothing is aligned *)
Theorem C98_escape_refuted : exists names out, dir_holds (q_of (dir_with names) no_inodes) 5 256 (dir_with names 5 256) /\ (forall n, In n names -> ~ In x09 n /\ ~ In x0a n) /\ prints_dir names = Ok out /\ In x09 out /\
  out <> tabular RuneCount with_spaces 7 (map (ls_fields no_time (no_inodes 5) false) (dir_with names 5 256)).
Proof.
  exists [[x61; xff]; [x62]]. eexists. split; [apply q_of_holds; vm_compute; reflexivity|]. split; [cbn [In]; intros n [<-|[<-|[]]]; cbn [In]; split; intuition discriminate|]. split; [vm_compute; reflexivity|]. split; [|vm_compute; discriminate].
  match goal with |- In _ ?l => assert (H : existsb (fun c => beqb c x09) l = true) by (vm_compute; reflexivity) end. apply existsb_exists in H as (c & Hc & E). apply beqb_eq in E. subst c. exact Hc.
Qed.
Print Assumptions C98_newline_refuted. Print Assumptions C98_escape_refuted.
(** ** C99 *)
From Verif Require Import PropsSamples PropsIdentify PropsIdentifyAll PropsIdentifyEx Identify PropsWork2 PropsReport.
Example C99_ex_text : report one6 false [e_of x41 12345; e_of x42 9] =
  Ok (str "fsid                                 count entropy  block size"%string ++ [x0a] ++ str "41414141-4141-4141-4141-414141414141 12345 1.000000 16384"%string ++ [x0a] ++ str "42424242-4242-4242-4242-424242424242 9     1.000000 16384"%string ++ [x0a]) /\
  exists out, report one6 true [e_of x41 12345; e_of x42 9] = Ok out /\ lines_of out =
    [str "41414141-4141-4141-4141-414141414141"%string ++ [x09] ++ str "12345"%string ++ [x09] ++ str "1.000000"%string ++ [x09] ++ str "16384"%string;
     str "42424242-4242-4242-4242-424242424242"%string ++ [x09] ++ str "9"%string ++ [x09; x09] ++ str "1.000000"%string ++ [x09] ++ str "16384"%string].
Proof. split; [vm_compute; reflexivity|]. eexists. split; vm_compute; reflexivity. Qed.
Lemma one6_ok x : printable (one6 x). Proof. split; [discriminate|apply field_ok_b; reflexivity]. Qed.
(** the image of C91: identify prints a line for id0 *)
#[local] Opaque d_blocks d_is.
Example C99_ex : forall N, 2^27 <= N < 2^30 -> let D := image_of 4096 d_blocks N in let h := host_with (file_dev D) NoFile in
  exists fuel rows out line, let o := o_of fuel 0 0 (fun k => Z.of_nat k mod (zlen D / 4096)) in
    btrfscue o h g_m (CIdentify 3 1000 1000000 4) [p_i] = mkResult h (OReport rows) Exit0 /\ report one6 true rows = Ok out /\
    In line (lines_of out) /\ nth 0 (cut x09 line) [] = Uuid.String id0.
Proof.
  intros N HN D h. destruct (C91_ex N HN) as (fuel & rows & e & EX & He & Hid & _). fold D in EX. fold h in EX. cbv zeta in EX. set (o := o_of fuel 0 0 (fun k => Z.of_nat k mod (zlen D / 4096))) in EX.
  assert (HZ : zlen D = 65536 + 4096 + 4096 * zlen d_blocks + N) by (apply image_of_len; [lia|lia|exact d_lens]). assert (EB : zlen d_blocks = 6) by (vm_cast_no_check (eq_refl 6)). rewrite EB in HZ.
  assert (HA : accepted (zlen D) 4096) by (unfold accepted; lia). assert (HR : room (zlen D) 4096) by (unfold room; lia). destruct (round_fair (zlen D) ltac:(lia)) as [Hd _].
  assert (U1 : is_u64 3 /\ is_u64 1000 /\ is_u64 1000000) by (unfold is_u64; clear; lia). destruct U1 as (U1 & U2 & U3). assert (H126 : 126 <= 4096) by (clear; lia).
  destruct (C99_identify o h g_m p_i D 3 1000 1000000 4 h rows one6 (host_dev _ _) HA HR H126 Hd U1 U2 U3 (fun m => Permutation_refl m) ltac:(intros i X; discriminate X) one6_ok EX) as (out & E & _ & _).
  exists fuel, rows, out.
  assert (HOK : Forall entry_ok rows) by (exact (identify_rows o h g_m p_i D 3 1000 1000000 4 h rows (host_dev _ _) HA HR H126 Hd U1 U2 U3 (fun m => Permutation_refl m) ltac:(intros i X; discriminate X) EX)).
  pose proof (C99_cut one6 rows out one6_ok HOK E) as HC. apply (in_map (fun e => [Uuid.String (e_FSID e); dec (e_Count e)])) in He. rewrite <- HC in He. apply in_map_iff in He as (line & HL & Hin). exists line. cbv zeta. fold o. split; [exact EX|]. split; [exact E|]. split; [exact Hin|].
  rewrite Hid in HL. destruct (cut x09 line) as [|x l]; cbn [firstn] in HL; [discriminate|]. cbn [nth]. congruence.
Qed.
Print Assumptions C99_ex.
(** ** C101: the image of C98 with the times of a zone one hour east of Greenwich *)
From Verif Require Import Time SpecTime PropsTime.
Definition cet (sec : Z) : Z := 3600.
Definition o_zone (rfuel : nat) : oracle := mkOracle 0 0 rfuel true true (fun _ _ => true) E0 true (fun _ => 0) (fun _ => SpecFloat.S754_zero false) (fun m => m) isort (shortTime cet).
#[local] Opaque shortTime.
Example C101_ex_image : forall N, enough N -> let h := host_with (file_dev (image_of 4096 ls_blocks N)) NoFile in
  exists (h1 : host) (b : bucket), btrfscue (o_of 0 0 0 (fun _ => 0)) h g_m (CRecon (Some (Uuid.String id0)) false) [p_i] = mkResult h1 ONone Exit0 /\
  forall rfuel, (Datatypes.length b + 1 < rfuel)%nat ->
  exists n lines out, Forall2 (ls_lines (shortTime cet) ls_inodes true ls_contents true) [256] lines /\ ls_output true [] (concat lines) out /\ forall fuel, (n <= fuel)%nat ->
    exists files dirs, btrfscue (with_fuel (o_zone rfuel) fuel) h1 g_m (CLs true true) [] = mkResult h1 (OListing files [] dirs) Exit0 /\ ls_printed files dirs = Ok out.
Proof.
  intros N HN h. destruct (l_scan N HN) as [HB HI].
  destruct (C101_recon_ls (o_of 0 0 0 (fun _ => 0)) h g_m (Uuid.String id0) id0 false p_i (image_of 4096 ls_blocks N) ls_is d_cs ls_contents ls_inodes (trouble0 0 0 0 _) (host_dev _ _) pm_ne eq_refl HB ltac:(cbn; lia) spells_id0 id0_len id0_nonzero HI l_orderly l_chunks l_contents l_inodes l_plain ls_names) as (h1 & b & R1 & _ & R3).
  exists h1, b. split; [exact R1|]. intros rfuel Hr. 
  pose proof (R3 (o_zone rfuel) cet g_m true true []) as R. clear R1 R3 HB HI HN. cbn [o_zone o_time o_rfuel o_sort] in R. specialize (R eq_refl eq_refl Hr isort_sorter).
  cbn [map] in R. change (shown_for (path_entry ls_contents) root_path) with (Dir 256) in R. cbn [flat_map dir_of one_of missing_of app map] in R. apply R. intros _ d [<-|[]]. exact l_acc.
Qed.

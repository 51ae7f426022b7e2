(** C101: the time that ls prints is that of the Gregorian calendar. *)
From Verif Require Import Go GoProofs ToString PropsText SpecTab Time SpecTime TimeCycle PropsPrintLs.
From Coq Require Import ZifyBool ZifyNat ZifyN.
Ltac Zify.zify_post_hook ::= Z.div_mod_to_equations.
#[local] Opaque Z.mul Z.add Z.sub Z.div Z.modulo.

Lemma leap_shift q y : leap_year (400 * q + y) = leap_year y.
Proof. unfold leap_year. assert (A : (400 * q + y) mod 4 = y mod 4) by lia. assert (B : (400 * q + y) mod 100 = y mod 100) by lia. assert (C : (400 * q + y) mod 400 = y mod 400) by lia. rewrite A, B, C. reflexivity. Qed.
Definition shift (q : Z) (t : Z * Z * Z) : Z * Z * Z := let '(y, m, d) := t in (400 * q + y, m, d).
Lemma tomorrow_shift q t : tomorrow (shift q t) = shift q (tomorrow t).
Proof.
  destruct t as [[y m] d]. cbn [shift tomorrow]. unfold month_length. rewrite leap_shift. destruct (d <? _); [reflexivity|]. destruct (m <? 12); [reflexivity|]. cbn [shift]. f_equal. f_equal. lia.
Qed.
(** the calendar *)
Definition gdate (n : Z) : Z * Z * Z := shift ((n + 719162) / 146097) (cyc ((n + 719162) mod 146097)).
Lemma eq3_eq a b : eq3 a b = true -> a = b.
Proof. destruct a as [[y m] d], b as [[y' m'] d']. cbn [eq3]. intros H. f_equal; [f_equal|]; lia. Qed.
Theorem C101_calendar : calendar gdate.
Proof.
  split; [vm_compute; reflexivity|]. intros n. unfold gdate. set (q := (n + 719162) / 146097). set (r := (n + 719162) mod 146097).
  assert (Hr : 0 <= r < 146097) by (unfold r; lia). pose proof (cycle r Hr) as G. unfold good in G. destruct (cyc r) as [[y m] d] eqn:E.
  rewrite !andb_true_iff in G. destruct G as ((((((G1 & G2) & G3) & G4) & G5) & G6) & G7). apply eq3_eq in G7. split.
  - rewrite tomorrow_shift, G7. destruct (r =? 146096) eqn:Er.
    + assert (A : (n + 1 + 719162) / 146097 = q + 1) by (unfold q; unfold r in *; lia). assert (B : (n + 1 + 719162) mod 146097 = 0) by (unfold r in *; lia). rewrite A, B.
      change (cyc 0) with (1, 1, 1). cbn [shift]. f_equal. f_equal. lia.
    + assert (A : (n + 1 + 719162) / 146097 = q) by (unfold q; unfold r in *; lia). assert (B : (n + 1 + 719162) mod 146097 = r + 1) by (unfold r in *; lia). rewrite A, B. reflexivity.
  - cbn [shift]. unfold month_length in *. rewrite leap_shift. lia.
Qed.
(** there is only one calendar *)
Definition valid_date (t : Z * Z * Z) : Prop := let '(y, m, d) := t in 1 <= m <= 12 /\ 1 <= d <= month_length y m.
Lemma month_max y m : 28 <= month_length y m <= 31.
Proof. unfold month_length. destruct (m =? 2), (leap_year y); try lia; destruct ((m =? 4) || (m =? 6) || (m =? 9) || (m =? 11)); lia. Qed.
Lemma december y : month_length y 12 = 31. Proof. reflexivity. Qed.
Lemma tomorrow_inj a b : valid_date a -> valid_date b -> tomorrow a = tomorrow b -> a = b.
Proof.
  destruct a as [[y m] d], b as [[y' m'] d']. cbn [valid_date tomorrow]. intros (H1 & H2) (H3 & H4) E.
  destruct (d <? month_length y m) eqn:A, (d' <? month_length y' m') eqn:B.
  - assert (y = y' /\ m = m' /\ d + 1 = d' + 1) as (-> & -> & X) by (repeat split; congruence). f_equal. lia.
  - exfalso. destruct (m' <? 12); assert (d + 1 = 1) by congruence; lia.
  - exfalso. destruct (m <? 12); assert (1 = d' + 1) by congruence; lia.
  - destruct (m <? 12) eqn:C, (m' <? 12) eqn:D.
    + assert (y = y' /\ m + 1 = m' + 1) as (-> & X) by (split; congruence). assert (m = m') by lia. subst m'. f_equal. lia.
    + exfalso. assert (m + 1 = 1) by congruence. lia.
    + exfalso. assert (1 = m' + 1) by congruence. lia.
    + assert (X : y + 1 = y' + 1) by congruence. assert (y = y') by lia. subst y'. assert (m = 12) by lia. assert (m' = 12) by lia. subst m m'. f_equal. lia.
Qed.
Theorem C101_one_calendar : forall f g, calendar f -> calendar g -> forall n, f n = g n.
Proof.
  intros f g [F0 F] [G0 G] n. assert (VF : forall n, valid_date (f n)) by (intros k; apply F). assert (VG : forall n, valid_date (g n)) by (intros k; apply G).
  apply (Z.bi_induction (fun k => f k = g k)); [intros x y ->; reflexivity|congruence|]. intros k. change (Z.succ k) with (k + 1). destruct (F k) as [-> _]. destruct (G k) as [-> _]. split; intros H; [congruence|]. apply tomorrow_inj; [apply VF|apply VG|exact H].
Qed.
(** ** what Go computes *)
Lemma isLeap_leap y : isLeap y = leap_year y.
Proof.
  assert (H : forall k, 0 < k -> (Z.rem y k =? 0) = (y mod k =? 0)).
  { intros k Hk. apply Bool.eq_true_iff_eq. rewrite !Z.eqb_eq. rewrite Z.rem_divide by lia. rewrite <- Z.mod_divide by lia. reflexivity. }
  unfold isLeap, leap_year. rewrite !H by lia. destruct (y mod 4 =? 0) eqn:A, (y mod 100 =? 0) eqn:B, (y mod 400 =? 0) eqn:C; try reflexivity; lia.
Qed.
Lemma absYear_cycle D : 0 <= D -> absYear D = let (y, d) := absYear (86400 * (D / 86400 mod 146097)) in (400 * (D / 86400 / 146097) + y, d).
Proof.
  intros H. unfold absYear. cbv zeta. set (e := D / 86400). assert (A : 86400 * (e mod 146097) / 86400 = e mod 146097) by lia. rewrite A. assert (B : e mod 146097 / 146097 = 0) by lia. rewrite B.
  assert (C : e - 146097 * (e / 146097) = e mod 146097) by lia. rewrite C. replace (e mod 146097 - 146097 * 0) with (e mod 146097) by lia. f_equal. lia.
Qed.
Lemma absDate_gdate abs : 0 <= abs -> absDate abs = gdate ((abs - unixToAbsolute) / 86400).
Proof.
  intros H. unfold absDate, gdate. rewrite absYear_cycle by exact H. set (e := abs / 86400).
  assert (U : (abs - unixToAbsolute) / 86400 + 719162 = e - 146097 * 730692556) by (unfold unixToAbsolute, e; lia). rewrite U. clear U.
  assert (Q : (e - 146097 * 730692556) / 146097 = e / 146097 - 730692556) by lia. assert (R : (e - 146097 * 730692556) mod 146097 = e mod 146097) by lia. rewrite Q, R. clear Q R.
  unfold cyc. destruct (absYear (86400 * (e mod 146097))) as [y yday]. rewrite isLeap_leap.
  replace (400 * (e / 146097) + y + absoluteZeroYear) with (400 * (e / 146097 - 730692556) + (y + 1)) by (unfold absoluteZeroYear; lia). rewrite leap_shift.
  destruct (monthDay (leap_year (y + 1)) yday) as [m d]. cbn [shift]. reflexivity.
Qed.
(** ** the text *)
Lemma two_digits n : 0 <= n < 100 -> dec2 n = [digit (n / 10); digit (n mod 10)] /\ (if n <? 10 then [x20] else []) ++ dec n = [if n <? 10 then x20 else digit (n / 10); digit (n mod 10)].
Proof.
  intros H. assert (HF : all_from 100 0 (fun n => (if list_eq_dec byte_eq_dec (dec2 n) [digit (n / 10); digit (n mod 10)] then true else false) && (if list_eq_dec byte_eq_dec ((if n <? 10 then [x20] else []) ++ dec n) [if n <? 10 then x20 else digit (n / 10); digit (n mod 10)] then true else false)) = true) by (vm_compute; reflexivity).
  pose proof (all_from_ok _ _ _ HF n ltac:(lia)) as G. cbv beta in G. apply andb_prop in G as [G1 G2].
  destruct (list_eq_dec byte_eq_dec (dec2 n) _) as [E1|]; [|discriminate]. destruct (list_eq_dec byte_eq_dec (_ ++ dec n) _) as [E2|]; [|discriminate]. split; assumption.
Qed.
Lemma month_name m : 1 <= m <= 12 -> nth (Z.to_nat (m - 1)) month_names [] = month_text m.
Proof.
  intros H. assert (HF : all_from 12 1 (fun m => if list_eq_dec byte_eq_dec (nth (Z.to_nat (m - 1)) month_names []) (month_text m) then true else false) = true) by (vm_compute; reflexivity).
  pose proof (all_from_ok _ _ _ HF m ltac:(lia)) as G. cbv beta in G. destruct (list_eq_dec byte_eq_dec _ _) as [E|]; [exact E|discriminate].
Qed.
Lemma shown abs : 0 <= abs -> exists y m d, absDate abs = (y, m, d) /\ 1 <= m <= 12 /\ 1 <= d <= 31.
Proof. intros H. rewrite absDate_gdate by exact H. pose proof (proj2 (proj2 C101_calendar ((abs - unixToAbsolute) / 86400))) as V. destruct (gdate _) as [[y m] d]. exists y, m, d. pose proof (month_max y m). repeat split; lia. Qed.
Lemma absTime_range zone t : 0 <= absTime zone t < 2^64.
Proof. unfold absTime. apply u64_range. Qed.
Lemma shortTime_text zone t : let abs := absTime zone t in exists y m d, absDate abs = (y, m, d) /\ 1 <= m <= 12 /\ 1 <= d <= 31 /\
  shortTime zone t = time_text m d (abs mod 86400 / 3600) (abs mod 86400 mod 3600 / 60).
Proof.
  intros abs. pose proof (absTime_range zone t) as R. fold abs in R. destruct (shown abs (proj1 R)) as (y & m & d & E & Hm & Hd). exists y, m, d. split; [exact E|]. split; [exact Hm|]. split; [exact Hd|].
  unfold shortTime. cbv zeta. fold abs. rewrite E. unfold absClock. cbv zeta. clear E R. set (s := abs mod 86400). assert (Hs : 0 <= s < 86400) by (unfold s; lia). clearbody s. clear abs.
  replace (s - s / 3600 * 3600) with (s mod 3600) by lia. rewrite month_name by lia. unfold time_text. f_equal. rewrite (app_assoc (if d <? 10 then [x20] else [])).
  destruct (two_digits d ltac:(lia)) as [_ ->]. destruct (two_digits (s / 3600) ltac:(lia)) as [-> _]. destruct (two_digits (s mod 3600 / 60) ltac:(lia)) as [-> _]. reflexivity.
Qed.
(** C101.  For every time that ls can find in an inode, in every time zone: the text is that of the month, day, hour
    and minute that the calendar and the clock of that zone show (times before the year -292277022399 excepted) *)
Theorem C101_time : forall date zone sec nsec, calendar date ->
  let local := sec + zone sec in - 9223372028715321600 <= local < 2^63 ->
  let '(_, m, d) := date (local / 86400) in
  shortTime zone (sec, nsec) = time_text m d (local mod 86400 / 3600) (local mod 3600 / 60).
Proof.
  intros date zone sec nsec HC local HL. rewrite (C101_one_calendar date gdate HC C101_calendar).
  destruct (shortTime_text zone (sec, nsec)) as (y & m & d & E & Hm & Hd & ->).
  assert (A : absTime zone (sec, nsec) = local + unixToAbsolute).
  { unfold absTime. cbn [fst]. fold local. unfold unixToAbsolute, u64, i64 in *. lia. }
  rewrite A in *. rewrite absDate_gdate in E by (unfold unixToAbsolute; lia). replace (local + unixToAbsolute - unixToAbsolute) with local in E by lia. rewrite E.
  assert (B : (local + unixToAbsolute) mod 86400 = local mod 86400) by (unfold unixToAbsolute; lia). rewrite B. f_equal. f_equal. lia.
Qed.
(** whatever the time, the text is twelve characters without tabs and newlines: it is one field of the table (C98) *)
Lemma digit_ok n : 0 <= n < 10 -> 13 <= bz (digit n) < 255.
Proof. intros H. unfold digit. rewrite bz_zb_small by lia. lia. Qed.
Theorem C101_field : forall zone t, field_ok (shortTime zone t) /\ length (shortTime zone t) = 12%nat.
Proof.
  intros zone t. destruct (shortTime_text zone t) as (y & m & d & _ & Hm & Hd & ->). set (s := absTime zone t mod 86400). assert (Hs : 0 <= s < 86400) by (unfold s; lia). clearbody s. split; [|reflexivity].
  unfold time_text. apply field_ok_app.
  - rewrite <- month_name by lia. apply field_ok_b. assert (HF : all_from 12 1 (fun m => forallb (fun c => (13 <=? bz c) && (bz c <? 255)) (nth (Z.to_nat (m - 1)) month_names [])) = true) by (vm_compute; reflexivity). apply (all_from_ok _ _ _ HF). lia.
  - intros c Hc. apply ok_byte. cbn [In] in Hc. assert (H20 : 13 <= bz x20 < 255) by (vm_compute; split; congruence). assert (H3a : 13 <= bz x3a < 255) by (vm_compute; split; congruence).
    destruct Hc as [<-|[<-|[<-|[<-|[<-|[<-|[<-|[<-|[<-|[]]]]]]]]]]; try assumption; try (apply digit_ok; lia). destruct (d <? 10); [exact H20|apply digit_ok; lia].
Qed.
(** two times look the same just when month, day, hour and minute are the same *)
Lemma digit_inj a b : 0 <= a < 10 -> 0 <= b < 10 -> digit a = digit b -> a = b.
Proof. intros Ha Hb H. assert (E : bz (digit a) = bz (digit b)) by congruence. unfold digit in E. rewrite !bz_zb_small in E by lia. lia. Qed.
Lemma month_inj a b : 1 <= a <= 12 -> 1 <= b <= 12 -> month_text a = month_text b -> a = b.
Proof.
  intros Ha Hb H. assert (HF : all_from 12 1 (fun a => all_from 12 1 (fun b => (a =? b) || (if list_eq_dec byte_eq_dec (month_text a) (month_text b) then false else true))) = true) by (vm_compute; reflexivity).
  pose proof (all_from_ok _ _ _ HF a ltac:(lia)) as G. cbv beta in G. pose proof (all_from_ok _ _ _ G b ltac:(lia)) as G'. cbv beta in G'. destruct (list_eq_dec byte_eq_dec _ _) as [|N]; [lia|destruct (N H)].
Qed.
Theorem C101_alike : forall m d h mi m' d' h' mi', 1 <= m <= 12 -> 1 <= m' <= 12 -> 1 <= d <= 31 -> 1 <= d' <= 31 -> 0 <= h < 24 -> 0 <= h' < 24 -> 0 <= mi < 60 -> 0 <= mi' < 60 ->
  time_text m d h mi = time_text m' d' h' mi' -> m = m' /\ d = d' /\ h = h' /\ mi = mi'.
Proof.
  intros m d h mi m' d' h' mi' ? ? ? ? ? ? ? ? E. unfold time_text in E. assert (E1 : month_text m = month_text m') by (unfold month_text in *; cbn [map app] in *; congruence). rewrite E1 in E. apply app_inv_head in E.
  assert (ED : (if d <? 10 then x20 else digit (d / 10)) = (if d' <? 10 then x20 else digit (d' / 10)) /\ digit (d mod 10) = digit (d' mod 10) /\ digit (h / 10) = digit (h' / 10) /\ digit (h mod 10) = digit (h' mod 10) /\ digit (mi / 10) = digit (mi' / 10) /\ digit (mi mod 10) = digit (mi' mod 10)).
  { repeat apply conj; congruence. }
  destruct ED as (D1 & D2 & D3 & D4 & D5 & D6). apply digit_inj in D2, D3, D4, D5, D6; try lia. split; [apply month_inj; assumption|]. split; [|split; lia].
  assert (SP : forall n, 0 <= n < 10 -> x20 <> digit n) by (intros n Hn X; assert (Y : bz x20 = bz (digit n)) by congruence; unfold digit in Y; rewrite bz_zb_small in Y by lia; change (bz x20) with 32 in Y; lia).
  destruct (d <? 10) eqn:A, (d' <? 10) eqn:B; [lia|destruct (SP (d' / 10)); [lia|exact D1]|destruct (SP (d / 10)); [lia|congruence]|]. apply digit_inj in D1; lia.
Qed.
(** the year is not shown: a file changed on 1 January 2000 looks like one changed twenty years later *)
Theorem C101_year_refuted : forall n, shortTime (fun _ => 0) (946684800, n) = shortTime (fun _ => 0) (1577836800, n) /\ 946684800 < 1577836800.
Proof. intros n. split; [vm_compute; reflexivity|lia]. Qed.
(** Oct 25 2019, in Berlin (two hours before Greenwich) *)
Example C101_ex : shortTime (fun _ => 7200) (1571998629, 0) = [x4f; x63; x74; x20; x32; x35; x20; x31; x32; x3a; x31; x37].
Proof. vm_compute. reflexivity. Qed.
Example C101_ex_leap : shortTime (fun _ => 0) (951782400, 0) = time_text 2 29 0 0 /\ gdate 11016 = (2000, 2, 29) /\ gdate (-1) = (1969, 12, 31) /\ shortTime (fun _ => 0) (-1, 0) = time_text 12 31 23 59.
Proof. repeat split; vm_compute; reflexivity. Qed.
Print Assumptions C101_time. Print Assumptions C101_one_calendar. Print Assumptions C101_calendar. Print Assumptions C101_alike. Print Assumptions C101_field.
(** ** recon then ls, with these times: C98_recon_ls without a condition on the text of a time *)
From Verif Require Import Go GoProofs Layout LayoutProofs SpecLayout PropsLayout KeyFmt KeyProofs Bolt Store StoreProofs SpecStore Session PropsSession IoUtil Recon ReconCmd PropsRecon PropsReconEx RangeItems.
From Verif Require Import PropsPath ToString PropsText Fs Recover SpecFs SpecContent PathProofs SpecTree SpecDisk DiskProofs PropsDisk Rescue PropsRescueNode.
From Verif Require Import Path Ls PropsLs PropsLsEx PropsLsDisk Uuid PropsUuid Cli SpecCli PropsCli PropsWork Tabwriter SpecTab TabProofs PropsPrint.
From Coq Require Import List ZifyBool ZifyNat Permutation.
Theorem C101_recon_ls : forall o1 h g1 t id a img D is cs contents inodes,
  no_trouble o1 -> h_dev h img = Some (file_dev D) -> g_metadata g1 <> [] -> h_db h (g_metadata g1) = NoFile ->
  big_enough D (g_blockSize g1) -> 101 <= g_blockSize g1 -> spells t id -> length id = 16%nat -> id <> repeat x00 16 ->
  image_items id D (g_blockSize g1) is -> orderly is -> chunks_are is cs ->
  (forall d, dir_holds (table is cs) 5 d (contents d)) -> inodes_are (table is cs) 5 inodes -> plain_tree contents ->
  (forall dir d, In d (contents dir) -> field_ok (di_name d)) ->
  exists h1 b, btrfscue o1 h g1 (CRecon (Some t) a) [img] = mkResult h1 ONone Exit0 /\ gained h h1 (g_metadata g1) b /\
  forall o2 zone g2 recursive show args, o_time o2 = shortTime zone -> g_metadata g2 = g_metadata g1 -> (length b + 1 < o_rfuel o2)%nat -> sorter (o_sort o2) ->
    let what := map (shown_for (path_entry contents)) (match args with [] => [root_path] | _ => args end) in
    (recursive = true -> forall d, In d (flat_map dir_of what) -> Acc (subdir contents) d) ->
    exists n lines out, Forall2 (ls_lines (shortTime zone) inodes show contents recursive) (flat_map dir_of what) lines /\
      ls_output show (map (ls_fields (shortTime zone) inodes show) (flat_map one_of what)) (concat lines) out /\ forall fuel, (n <= fuel)%nat ->
      exists files dirs, btrfscue (with_fuel o2 fuel) h1 g2 (CLs recursive show) args = mkResult h1 (OListing files (flat_map missing_of what) dirs) Exit0 /\ ls_printed files dirs = Ok out.
Proof.
  intros o1 h g1 t id a img D is cs contents inodes HO Hd Hm Hf HB Hb HS HL HZ HI HOr HC HV HM HG0 HN.
  destruct (C98_recon_ls o1 h g1 t id a img D is cs contents inodes HO Hd Hm Hf HB Hb HS HL HZ HI HOr HC HV HM HG0 HN) as (h1 & b & R1 & R2 & R3). exists h1, b. split; [exact R1|]. split; [exact R2|].
  intros o2 zone g2 recursive show args Et Em Hr Hso what HA. pose proof (R3 o2 g2 recursive show args Em Hr Hso) as R. rewrite Et in R. apply R; [apply C101_field|exact HA].
Qed.
Print Assumptions C101_recon_ls.

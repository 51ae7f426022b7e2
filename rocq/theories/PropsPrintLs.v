(** C98: what ls prints, from the index and from the image. *)
From Verif Require Import Go GoProofs Layout LayoutProofs SpecLayout PropsLayout KeyFmt KeyProofs Bolt Store StoreProofs SpecStore Session PropsSession IoUtil Recon ReconCmd PropsRecon PropsReconEx RangeItems.
From Verif Require Import PropsPath ToString PropsText Fs Recover SpecFs SpecContent PathProofs SpecTree SpecDisk DiskProofs PropsDisk Rescue PropsRescueNode.
From Verif Require Import Path Ls PropsLs PropsLsEx PropsLsDisk Uuid PropsUuid Cli SpecCli PropsCli PropsWork Tabwriter SpecTab TabProofs PropsPrint.
From Coq Require Import List ZifyBool ZifyNat Permutation.

Section Rows.
  Variable shortTime : Z * Z -> list byte.
  Variable inodes : Z -> option d_inode.
  Variable showInode : bool.
  (** the fields of an entry's line *)
  Definition ls_fields (d : d_dir_item) : list (list byte) :=
    let i := k_objectid (di_location d) in
    (if showInode then [dec i] else []) ++
    match inodes i with
    | Some n => [dirItemTypeString (di_type d) ++ shown_perms (in_mode n); dec (in_nlink n); dec (in_uid n); dec (in_gid n); dec (in_size n); shortTime (ts_sec (in_ctime n), ts_nsec (in_ctime n))]
    | None => [dirItemTypeString (di_type d) ++ repeat x3f 9; [x3f]; [x3f]; [x3f]; [x3f]; [x3f]]
    end ++ [di_name d].
  Definition ls_columns : nat := if showInode then 8 else 7.
  Variable contents : Z -> list d_dir_item.
  (** a directory's lines, then each subdirectory's under a heading: its name and a colon *)
  Inductive ls_lines : bool -> Z -> list (list (list byte)) -> Prop :=
  | ls_lines_dir rec dir ds subs : Permutation (contents dir) ds -> ls_sorted ds ->
      Forall2 (fun d t => ls_lines true (target d) t) (if rec : bool then filter is_dir ds else []) subs ->
      ls_lines rec dir (map ls_fields ds ++ concat (map (fun p => [di_name (fst p) ++ [x3a]] :: snd p) (combine (filter is_dir ds) subs))).
End Rows.

(** ** fields *)
Lemma field_ok_app a b : field_ok a -> field_ok b -> field_ok (a ++ b).
Proof. intros A B c H. apply in_app_or in H as [H|H]; auto. Qed.
Lemma ok_byte c : 13 <= bz c < 255 -> c <> x09 /\ c <> x0a /\ c <> x0b /\ c <> x0c /\ c <> xff.
Proof. intros H. repeat split; intros ->; vm_compute in H; destruct H; congruence. Qed.
Lemma field_ok_dec n : 0 <= n -> field_ok (dec n).
Proof.
  unfold dec. assert (G : forall fuel n acc, 0 <= n -> field_ok acc -> field_ok (dec_loop fuel n acc)).
  { assert (D : forall m acc, 0 <= m < 10 -> field_ok acc -> field_ok (digit_char m :: acc)).
    { intros m acc Hm HA c [<-|H]; [|exact (HA c H)]. apply ok_byte. rewrite digit_bz by lia. lia. }
    induction fuel as [|f IH]; intros m acc Hm HA; cbn [dec_loop]; [exact HA|]. destruct (m <? 10) eqn:E; [apply D; [lia|exact HA]|]. apply IH; [apply Z.div_pos; lia|]. apply D; [apply Z.mod_pos_bound; lia|exact HA]. }
  intros H. apply G; [exact H|intros c []].
Qed.
Lemma field_ok_b f : forallb (fun c => (13 <=? bz c) && (bz c <? 255)) f = true -> field_ok f.
Proof. rewrite forallb_forall. intros H c Hc. apply ok_byte. specialize (H c Hc). lia. Qed.
Lemma field_ok_type t : field_ok (dirItemTypeString t).
Proof. apply field_ok_b. unfold dirItemTypeString. repeat match goal with |- context [if ?b then _ else _] => destruct b end; vm_compute; reflexivity. Qed.
Lemma field_ok_perms m : field_ok (shown_perms m).
Proof.
  intros c H. unfold shown_perms in H. apply ok_byte. apply in_map_iff in H as (i & <- & Hi). destruct (Z.testbit m _); [|vm_compute; split; congruence].
  assert (K : (i mod 3 < 3)%nat) by (apply Nat.mod_upper_bound; lia). destruct (i mod 3)%nat as [|[|[|k]]]; [| | |lia]; vm_compute; split; congruence.
Qed.
Lemma ls_line_fields st inodes show d : ls_line st inodes show d = row_text (ls_fields st inodes show d).
Proof.
  unfold ls_line, ls_fields. cbv zeta. destruct show, (inodes (k_objectid (di_location d))); cbn [app row_text columns map concat]; unfold columns, q9; cbn [map concat]; rewrite ?app_nil_r; repeat (rewrite <- ?app_assoc; cbn [app]); reflexivity.
Qed.
Lemma ls_fields_length st inodes show d : length (ls_fields st inodes show d) = ls_columns show.
Proof. unfold ls_fields, ls_columns. destruct show, (inodes (k_objectid (di_location d))); reflexivity. Qed.
(** numbers of items are not negative *)
Lemma fits_nonneg fs w v : fits fs -> In (I w v) fs -> 0 <= v.
Proof. intros F H. exact (proj1 (proj1 (Forall_forall _ _) F _ H)). Qed.
Lemma item_nonneg s d : item_for s d -> 0 <= k_objectid (di_location d).
Proof. intros [(_ & F & _) _]. apply (fits_nonneg _ 8 _ F). left. reflexivity. Qed.
Lemma fields_ok st inodes show q d : (forall t, field_ok (st t)) -> inodes_are q 5 inodes -> 0 <= k_objectid (di_location d) -> field_ok (di_name d) -> Forall field_ok (ls_fields st inodes show d).
Proof.
  intros HT HI Hd HN. unfold ls_fields. cbv zeta. apply Forall_app. split; [destruct show; [apply Forall_cons; [apply field_ok_dec; exact Hd|]|]; apply Forall_nil|]. apply Forall_app. split; [|constructor; [exact HN|constructor]].
  specialize (HI (k_objectid (di_location d))). destruct (inodes (k_objectid (di_location d))) as [n|].
  - destruct HI as (ii & _ & (_ & F & _) & _). repeat apply Forall_cons; [apply field_ok_app; [apply field_ok_type|apply field_ok_perms]| | | | |apply HT|apply Forall_nil]; apply field_ok_dec;
      (eapply fits_nonneg; [exact F|]); unfold inode_fields; cbn [app In].
    + do 5 right. left. reflexivity.
    + do 6 right. left. reflexivity.
    + do 7 right. left. reflexivity.
    + do 2 right. left. reflexivity.
  - repeat apply Forall_cons; [apply field_ok_app; [apply field_ok_type|]| | | | | |apply Forall_nil]; apply field_ok_b; reflexivity.
Qed.
(** lines of [n] fields and headings can be laid out *)
Lemma lines_prints n width pad : forall lines, (forall l, In l lines -> length l = n \/ exists h, l = [h]) -> exists out, prints width pad n lines out.
Proof.
  induction lines as [|l lines IH]; intros H; [eexists; apply (prints_end width pad n []); intros r []|]. destruct IH as (out & P); [intros l' Hl'; apply H; right; exact Hl'|].
  destruct (H l (or_introl eq_refl)) as [HL|(h & ->)].
  - destruct P as [rows HR|rows h rest o HR HP].
    + eexists. apply (prints_end width pad n (l :: rows)). intros r [<-|Hr]; auto.
    + eexists. apply (prints_heading width pad n (l :: rows) h rest o); [intros r [<-|Hr]; auto|exact HP].
  - eexists. apply (prints_heading width pad n [] h lines out); [intros r []|exact P].
Qed.
Lemma lines_of_text st inodes show contents q : (forall t, field_ok (st t)) -> inodes_are q 5 inodes -> (forall d, dir_holds q 5 d (contents d)) -> (forall dir d, In d (contents dir) -> field_ok (di_name d)) ->
  forall rec dir text, ls_text st inodes show contents rec dir text ->
  exists lines, ls_lines st inodes show contents rec dir lines /\ text = concat (map row_text lines) /\ Forall (Forall field_ok) lines /\
    (forall l, In l lines -> length l = ls_columns show \/ exists h, l = [h]).
Proof.
  intros HT HI HC HN. fix IH 4. intros rec dir text H. destruct H as [rec dir ds subs HP HS HF].
  assert (HD : forall d, In d ds -> 0 <= k_objectid (di_location d) /\ field_ok (di_name d)).
  { intros d Hd. apply (Permutation_in _ (Permutation_sym HP)) in Hd. split; [|exact (HN _ _ Hd)]. destruct (HC dir) as [_ HF2]. clear - Hd HF2. induction HF2 as [|e x l l' HX HF2 IH]; [destruct Hd|]. destruct Hd as [->|Hd]; [exact (item_nonneg (snd e) d HX)|exact (IH Hd)]. }
  assert (G : forall l subs, Forall2 (fun d t => ls_text st inodes show contents true (target d) t) l subs -> incl l ds ->
    exists lsubs, Forall2 (fun d t => ls_lines st inodes show contents true (target d) t) l lsubs /\
      concat (map (fun p => di_name (fst p) ++ [x3a; x0a] ++ snd p) (combine l subs)) = concat (map row_text (concat (map (fun p => [di_name (fst p) ++ [x3a]] :: snd p) (combine l lsubs)))) /\
      Forall (Forall field_ok) (concat (map (fun p => [di_name (fst p) ++ [x3a]] :: snd p) (combine l lsubs))) /\
      (forall x, In x (concat (map (fun p => [di_name (fst p) ++ [x3a]] :: snd p) (combine l lsubs))) -> length x = ls_columns show \/ exists h, x = [h])).
  { clear HF subs. fix IH2 3. intros l subs HF HIn. destruct HF as [|d t l subs Ht HF].
    - exists []. split; [constructor|]. split; [reflexivity|]. split; [constructor|]. intros x [].
    - destruct (IH true (target d) t Ht) as (ln & L1 & L2 & L3 & L4). destruct (IH2 l subs HF) as (lsubs & A & B & C & D); [intros x Hx; apply HIn; right; exact Hx|].
      clear IH IH2. destruct (HD d (HIn d (or_introl eq_refl))) as [_ Hname]. exists (ln :: lsubs). split; [constructor; assumption|]. cbn [combine map concat fst snd]. split; [|split].
      + cbn [app map concat row_text]. rewrite map_app, concat_app, <- B, <- L2. repeat (rewrite <- ?app_assoc; cbn [app]). reflexivity.
      + rewrite <- app_comm_cons. constructor; [constructor; [|constructor]; apply field_ok_app; [exact Hname|apply field_ok_b; reflexivity]|]. apply Forall_app. auto.
      + rewrite <- app_comm_cons. intros x [<-|Hx]; [right; eauto|]. apply in_app_or in Hx as [Hx|Hx]; auto. }
  destruct (G (if rec then filter is_dir ds else []) subs HF) as (lsubs & A & B & C & D); [destruct rec; [intros x Hx; apply filter_In in Hx; apply Hx|intros x []]|]. clear G IH.
  assert (E : forall (X : Type) (subs : list X), (rec = false -> subs = []) -> combine (filter is_dir ds) subs = combine (if rec then filter is_dir ds else []) subs) by (intros X s Hs; destruct rec; [reflexivity|rewrite Hs by reflexivity; destruct (filter is_dir ds); reflexivity]).
  assert (E1 : rec = false -> subs = []) by (intros ->; inversion HF; reflexivity). assert (E2 : rec = false -> lsubs = []) by (intros ->; inversion A; reflexivity).
  rewrite (E _ subs E1). eexists. split; [exact (ls_lines_dir st inodes show contents rec dir ds lsubs HP HS A)|]. rewrite (E _ lsubs E2). split; [|split].
  - rewrite map_app, concat_app, <- B. f_equal. rewrite map_map. f_equal. apply map_ext. intros d. apply ls_line_fields.
  - apply Forall_app. split; [|exact C]. apply Forall_forall. intros x Hx. apply in_map_iff in Hx as (d & <- & Hd). destruct (HD d Hd). exact (fields_ok st inodes show q d HT HI ltac:(assumption) ltac:(assumption)).
  - intros x Hx. apply in_app_or in Hx as [Hx|Hx]; [|auto]. apply in_map_iff in Hx as (d & <- & Hd). left. apply ls_fields_length.
Qed.

(** ** C98c: ls prints tables *)
(** the two outputs: the named files, then the directories *)
Definition ls_output (show : bool) (files : list (list (list byte))) (dirs : list (list (list byte))) (out : list byte) : Prop :=
  exists a b, prints RuneCount with_spaces (ls_columns show) files a /\ prints RuneCount with_spaces (ls_columns show) dirs b /\ out = a ++ b.
Lemma output_printed st inodes show contents q ones ids recursive texts : (forall t, field_ok (st t)) -> inodes_are q 5 inodes -> (forall d, dir_holds q 5 d (contents d)) -> (forall dir d, In d (contents dir) -> field_ok (di_name d)) ->
  (forall d, In d ones -> 0 <= k_objectid (di_location d) /\ field_ok (di_name d)) ->
  Forall2 (ls_text st inodes show contents recursive) ids texts ->
  exists lines out, Forall2 (ls_lines st inodes show contents recursive) ids lines /\ ls_output show (map (ls_fields st inodes show) ones) (concat lines) out /\
    ls_printed (concat (map (ls_line st inodes show) ones)) (concat texts) = Ok out.
Proof.
  intros HT HI HC HN HO HF. assert (N2 : (2 <= ls_columns show)%nat) by (destruct show; cbn; lia).
  assert (G : exists lines, Forall2 (ls_lines st inodes show contents recursive) ids lines /\ concat texts = concat (map row_text (concat lines)) /\ Forall (Forall field_ok) (concat lines) /\
    forall l, In l (concat lines) -> length l = ls_columns show \/ exists h, l = [h]).
  { induction HF as [|id text ids texts H HF IH]; [exists []; split; [constructor|]; split; [reflexivity|]; split; [constructor|intros l []]|]. destruct IH as (lines & A & B & C & D).
    destruct (lines_of_text st inodes show contents q HT HI HC HN recursive id text H) as (ln & L1 & L2 & L3 & L4). exists (ln :: lines). split; [constructor; assumption|]. cbn [concat]. split; [|split].
    - rewrite map_app, concat_app, <- B, <- L2. reflexivity.
    - apply Forall_app. auto.
    - intros l Hl. apply in_app_or in Hl as [Hl|Hl]; auto. }
  destruct G as (lines & A & B & C & D). destruct (lines_prints (ls_columns show) RuneCount with_spaces (concat lines) D) as (o2 & P2).
  set (files := map (ls_fields st inodes show) ones). assert (HL : forall l, In l files -> length l = ls_columns show) by (intros l Hl; apply in_map_iff in Hl as (d & <- & _); apply ls_fields_length).
  pose proof (prints_end RuneCount with_spaces (ls_columns show) files HL) as P1. exists lines, (tabular RuneCount with_spaces (ls_columns show) files ++ o2). split; [exact A|]. split; [eexists; eexists; split; [exact P1|split; [exact P2|reflexivity]]|].
  unfold ls_printed. replace (concat (map (ls_line st inodes show) ones)) with (concat (map row_text files)).
  - assert (HFO : Forall (Forall field_ok) files).
    { apply Forall_forall. intros x Hx. apply in_map_iff in Hx as (d & <- & Hd). destruct (HO d Hd). exact (fields_ok st inodes show q d HT HI ltac:(assumption) ltac:(assumption)). }
    rewrite (C98_printed _ files _ N2 HFO P1). cbn [rbind]. rewrite B, (C98_printed _ (concat lines) o2 N2 C P2). reflexivity.
  - unfold files. rewrite map_map. f_equal. apply map_ext. intros d. symmetry. apply ls_line_fields.
Qed.
Theorem C98_ls : forall st sort find entry q inodes contents recursive show args, sorter sort -> finds find entry -> inodes_are q 5 inodes -> (forall d, dir_holds q 5 d (contents d)) ->
  (forall t, field_ok (st t)) -> (forall dir d, In d (contents dir) -> field_ok (di_name d)) -> (forall p d, entry p = Some d -> field_ok (di_name d)) ->
  let what := map (shown_for entry) (match args with [] => [root_path] | _ => args end) in
  (recursive = true -> forall d, In d (flat_map dir_of what) -> Acc (subdir contents) d) ->
  exists fuel0 lines out, Forall2 (ls_lines st inodes show contents recursive) (flat_map dir_of what) lines /\
    ls_output show (map (ls_fields st inodes show) (flat_map one_of what)) (concat lines) out /\ forall fuel, (fuel0 <= fuel)%nat ->
    exists files dirs, doListFiles st sort find fuel q recursive show args = Ok (files, flat_map missing_of what, dirs) /\ ls_printed files dirs = Ok out.
Proof.
  intros st sort find entry q inodes contents recursive show args HS HF HI HC HT HN HE what HA.
  destruct (C65_arguments_partial st sort find entry q inodes contents recursive show args HS HF HI HC HA) as (f0 & texts & HX & HR).
  assert (HOnes : forall d, In d (flat_map one_of what) -> 0 <= k_objectid (di_location d) /\ field_ok (di_name d)).
  { intros d Hd. apply in_flat_map in Hd as (x & Hx & Hd). apply in_map_iff in Hx as (arg & <- & _). unfold shown_for in Hd. cbv zeta in Hd. destruct (bytes_eqb (Clean arg) root_path); [destruct Hd|]. specialize (HF (Clean arg)).
    destruct (entry (Clean arg)) as [e|] eqn:E; [|destruct Hd]. destruct HF as (s & _ & HD). destruct (is_dir e); [destruct Hd|]. destruct Hd as [<-|[]]. split; [exact (item_nonneg s e HD)|exact (HE _ _ E)]. }
  destruct (output_printed st inodes show contents q (flat_map one_of what) _ recursive texts HT HI HC HN HOnes HX) as (lines & out & A & B & C).
  exists f0, lines, out. split; [exact A|]. split; [exact B|]. intros fuel Hf. eexists; eexists. split; [exact (HR fuel Hf)|exact C].
Qed.
Lemma path_entry_name contents : (forall dir d, In d (contents dir) -> field_ok (di_name d)) -> forall p d, path_entry contents p = Some d -> field_ok (di_name d).
Proof.
  intros HN p d. unfold path_entry. generalize (Split (TrimLeft p)). intros l. generalize 256. induction l as [|c rest IH]; intros dir H; [discriminate|].
  assert (G : forall d, named contents dir c = Some d -> field_ok (di_name d)) by (intros d' E; apply find_some in E as [E _]; exact (HN _ _ E)).
  cbn [entry_at] in H. destruct rest as [|c2 rest]; [exact (G d H)|]. destruct (named contents dir c) as [d0|]; [|discriminate]. destruct (is_dir d0); [|discriminate]. exact (IH _ H).
Qed.
(** the same from the image: recon, then ls *)
Theorem C98_recon_ls : forall o1 h g1 t id a img D is cs contents inodes,
  no_trouble o1 -> h_dev h img = Some (file_dev D) -> g_metadata g1 <> [] -> h_db h (g_metadata g1) = NoFile ->
  big_enough D (g_blockSize g1) -> 101 <= g_blockSize g1 -> spells t id -> length id = 16%nat -> id <> repeat x00 16 ->
  image_items id D (g_blockSize g1) is -> orderly is -> chunks_are is cs ->
  (forall d, dir_holds (table is cs) 5 d (contents d)) -> inodes_are (table is cs) 5 inodes -> plain_tree contents ->
  (forall dir d, In d (contents dir) -> field_ok (di_name d)) ->
  exists h1 b, btrfscue o1 h g1 (CRecon (Some t) a) [img] = mkResult h1 ONone Exit0 /\ gained h h1 (g_metadata g1) b /\
  forall o2 g2 recursive show args, g_metadata g2 = g_metadata g1 -> (length b + 1 < o_rfuel o2)%nat -> sorter (o_sort o2) -> (forall t, field_ok (o_time o2 t)) ->
    let what := map (shown_for (path_entry contents)) (match args with [] => [root_path] | _ => args end) in
    (recursive = true -> forall d, In d (flat_map dir_of what) -> Acc (subdir contents) d) ->
    exists n lines out, Forall2 (ls_lines (o_time o2) inodes show contents recursive) (flat_map dir_of what) lines /\
      ls_output show (map (ls_fields (o_time o2) inodes show) (flat_map one_of what)) (concat lines) out /\ forall fuel, (n <= fuel)%nat ->
      exists files dirs, btrfscue (with_fuel o2 fuel) h1 g2 (CLs recursive show) args = mkResult h1 (OListing files (flat_map missing_of what) dirs) Exit0 /\ ls_printed files dirs = Ok out.
Proof.
  intros o1 h g1 t id a img D is cs contents inodes HO Hd Hm Hf HB Hb HS HL HZ HI HOr HC HV HM HG0 HN.
  destruct (C90_recon_ls o1 h g1 t id a img D is cs contents inodes HO Hd Hm Hf HB Hb HS HL HZ HI HOr HC HV HM HG0) as (h1 & b & R1 & R2 & R3). exists h1, b. split; [exact R1|]. split; [exact R2|].
  intros o2 g2 recursive show args Em Hr Hso HT what HA. destruct (R3 o2 g2 recursive show args Em Hr Hso HA) as (n & texts & HX & HR).
  assert (HOnes : forall d, In d (flat_map one_of what) -> 0 <= k_objectid (di_location d) /\ field_ok (di_name d)).
  { intros d Hd'. apply in_flat_map in Hd' as (x & Hx & Hd'). apply in_map_iff in Hx as (arg & <- & _). unfold shown_for in Hd'. cbv zeta in Hd'. destruct (bytes_eqb (Clean arg) root_path); [destruct Hd'|].
    destruct (path_entry contents (Clean arg)) as [e|] eqn:E; [|destruct Hd']. destruct (is_dir e); [destruct Hd'|]. destruct Hd' as [<-|[]]. split; [|exact (path_entry_name contents HN _ _ E)].
    revert E. unfold path_entry. generalize (Split (TrimLeft (Clean arg))). intros l. generalize 256. induction l as [|c rest IH]; intros dir H; [discriminate|].
    assert (G : forall d, named contents dir c = Some d -> 0 <= k_objectid (di_location d)).
    { intros d' E. apply find_some in E as [E _]. destruct (HV dir) as [_ HF2]. clear - E HF2. induction HF2 as [|y x l l' HX HF2 IH]; [destruct E|]. destruct E as [->|E]; [exact (item_nonneg (snd y) d' HX)|exact (IH E)]. }
    cbn [entry_at] in H. destruct rest as [|c2 rest]; [exact (G e H)|]. destruct (named contents dir c) as [d0|]; [|discriminate]. destruct (is_dir d0); [|discriminate]. exact (IH _ H). }
  destruct (output_printed (o_time o2) inodes show contents (table is cs) (flat_map one_of what) _ recursive texts HT HM HV HN HOnes HX) as (lines & out & A & B & C).
  exists n, lines, out. split; [exact A|]. split; [exact B|]. intros fuel Hfuel. eexists; eexists. split; [exact (HR fuel Hfuel)|exact C].
Qed.
Print Assumptions C98_ls. Print Assumptions C98_recon_ls.

(** C53, C57: reading mounted files. *)
From Verif Require Import Go GoProofs Layout LayoutProofs SpecLayout StructProofs PropsLayout KeyFmt KeyProofs Bolt Store StoreProofs SpecStore PropsStore MkIndex IoUtil Fs Recover SpecContent Conc Rescue.
From Verif Require Import PropsRange PropsPath PropsRecoverDfs PropsRecoverFile PropsRecoverEx.
From Coq Require Import ZifyBool ZifyNat ZifyN.
Ltac Zify.zify_post_hook ::= Z.div_mod_to_equations.

(** ** specification *)
(** extents that follow each other from [a] to [b] without gap or overlap *)
Fixpoint chain (a : Z) (xs : list extent) (b : Z) : Prop :=
  match xs with
  | [] => a = b
  | x :: xs => ext_off x = a /\ 0 < ext_len x /\ chain (a + ext_len x) xs b
  end.
Definition is_inline (x : extent) : Prop := match x with Inline _ _ => True | _ => False end.
(** on the device *)
Definition on_device (D : list byte) (x : extent) : Prop := match x with Disk _ n src => src + n <= zlen D | _ => True end.

(** ** proof *)
Definition entry_for (m : extentMapEntry) (x : extent) : Prop :=
  x_fileOffset m = ext_off x /\ x_length m = ext_len x /\
  match x with
  | Inline _ _ => False
  | Hole _ _ => x_diskByteNr m = 0
  | Disk _ _ src => x_diskByteNr m <> 0 /\ x_physOffset m = src
  end.
Lemma rbind_inv {A B} (r : Res A) (f : A -> Res B) b : rbind r f = Ok b -> exists a, r = Ok a /\ f a = Ok b.
Proof. destruct r as [a| |]; cbn; intros H; [exists a; auto|discriminate|discriminate]. Qed.
Lemma map_entry_for q ke x : is_extent q ke x -> ~ is_inline x -> exists m, map_entry q ke = Ok m /\ entry_for m x.
Proof.
  destruct ke as [k e]. intros [(d & _ & _ & ->)|[(t & n & _ & _ & Hn & Hnr & ->)|(t & n & nr & id & phys & o & _ & _ & Hn & Hnr & Hnz & Hph & Ho & ->)]] HI; [destruct HI; exact Logic.I| |].
  - unfold map_entry. rewrite Hnr. cbn [rbind]. change (0 <? 0) with false. cbn [rbind]. rewrite Hn. cbn [rbind].
    assert (HO : exists o, FileExtentItem_Offset e = Ok o).
    { unfold FileExtentItem_NumBytes, at64 in Hn. unfold FileExtentItem_Offset, at64. apply rbind_inv in Hn as (b & Hb & Hn).
      unfold go_from, go_slice in *. change fileExtentItemNumBytes with 45 in Hb. change fileExtentItemOffset with 37.
      destruct ((0 <=? 45) && (45 <=? s_len e) && (s_len e <=? scap e)) eqn:EC; [|discriminate]. replace ((0 <=? 37) && (37 <=? s_len e) && (s_len e <=? scap e)) with true by lia.
      cbn [rbind]. assert (HB : b = {| s_arr := skipn (Z.to_nat 45) (s_arr e); s_len := s_len e - 45 |}) by congruence. subst b. clear Hb. unfold SliceUint64LE, go_to, go_slice in *. cbn [s_len s_arr] in *. unfold scap in *. cbn [s_arr] in *.
      destruct ((0 <=? 0) && (0 <=? 8) && (8 <=? zlen (skipn (Z.to_nat 45) (s_arr e)))) eqn:EC2; [|cbn [rbind] in Hn; discriminate Hn].
      replace ((0 <=? 0) && (0 <=? 8) && (8 <=? zlen (skipn (Z.to_nat 37) (s_arr e)))) with true; [eexists; reflexivity|]. unfold zlen in *. rewrite skipn_length in *. lia. }
    destruct HO as [o Ho]. rewrite Ho. cbn [rbind]. eexists. split; [reflexivity|]. repeat split.
  - unfold map_entry. rewrite Hnr. cbn [rbind]. pose proof (at64_range _ _ _ Hnr). replace (0 <? nr) with true by lia. rewrite Hph. cbn [rbind]. rewrite Hn. cbn [rbind]. rewrite Ho. cbn [rbind].
    eexists. split; [reflexivity|]. repeat split. exact Hnz.
Qed.
Lemma map_entries_for q l xs : Forall2 (is_extent q) l xs -> Forall (fun x => ~ is_inline x) xs -> exists m, map_entries q l (Ok tt) = Ok m /\ Forall2 entry_for m xs.
Proof.
  induction 1 as [|ke x l xs HX _ IH]; intros HI; [exists []; split; [reflexivity|constructor]|]. inversion HI; subst.
  destruct (map_entry_for q ke x) as (m & HM & HE); [assumption..|]. destruct IH as (ms & HMs & HEs); [assumption|]. exists (m :: ms). cbn [map_entries]. rewrite HM. cbn [rbind]. rewrite HMs. cbn [rbind]. split; [reflexivity|constructor; assumption].
Qed.
Lemma chain_range a xs b : chain a xs b -> a <= b /\ forall x, In x xs -> a <= ext_off x /\ ext_off x + ext_len x <= b /\ 0 < ext_len x.
Proof.
  revert a. induction xs as [|x xs IH]; intros a H; cbn [chain] in H; [split; [lia|intros y []]|]. destruct H as (<- & HL & H). destruct (IH _ H) as [IH1 IH2]. split; [lia|].
  intros y [<-|Hy]; [lia|]. destruct (IH2 y Hy). lia.
Qed.
Lemma chain_unique a xs b x y i : chain a xs b -> In x xs -> In y xs -> covers x i = true -> covers y i = true -> x = y.
Proof.
  revert a. induction xs as [|z xs IH]; intros a H; cbn [chain] in H; [intros []|]. destruct H as (<- & HL & H). pose proof (chain_range _ _ _ H) as [_ HR].
  unfold covers. intros [<-|Hx] [<-|Hy] Cx Cy; [reflexivity| | |exact (IH _ H Hx Hy Cx Cy)].
  - specialize (HR y Hy). lia.
  - specialize (HR x Hx). lia.
Qed.
Lemma chain_byte D a xs b x i : chain a xs b -> In x xs -> covers x i = true -> file_byte D xs i = ext_byte D x i.
Proof.
  intros HC Hx Cx. unfold file_byte. destruct (List.find (fun x => covers x i) (rev xs)) as [y|] eqn:EF.
  - apply find_some in EF as [Hy Cy]. apply in_rev in Hy. rewrite (chain_unique _ _ _ _ _ _ HC Hy Hx Cy Cx). reflexivity.
  - pose proof (find_none _ _ EF x) as HN. cbv beta in HN. rewrite HN in Cx; [discriminate|]. apply in_rev in Hx. exact Hx.
Qed.
Lemma byte_at_app_l a b i : 0 <= i < zlen a -> byte_at (a ++ b) i = byte_at a i.
Proof. intros H. unfold byte_at. apply app_nth1. unfold zlen in H. lia. Qed.
Lemma byte_at_app_r a b i : zlen a <= i -> byte_at (a ++ b) i = byte_at b (i - zlen a).
Proof. intros H. unfold byte_at. unfold zlen in *. rewrite app_nth2 by lia. f_equal. lia. Qed.
Lemma byte_at_firstn n a i : 0 <= i < Z.of_nat n -> byte_at (firstn n a) i = byte_at a i.
Proof.
  intros H. unfold byte_at. revert a i H. induction n as [|n IH]; intros a i H; [lia|]. destruct a as [|c a]; [reflexivity|]. cbn [firstn].
  destruct (Z.eq_dec i 0) as [->|Hi]; [reflexivity|]. replace (Z.to_nat i) with (S (Z.to_nat (i - 1))) by lia. cbn [nth]. apply IH. lia.
Qed.
Lemma byte_at_skipn n a i : 0 <= i -> byte_at (skipn n a) i = byte_at a (Z.of_nat n + i).
Proof.
  intros H. unfold byte_at. replace (Z.to_nat (Z.of_nat n + i)) with (n + Z.to_nat i)%nat by lia. generalize (Z.to_nat i). clear. revert a. induction n as [|n IH]; intros a k; [reflexivity|].
  destruct a as [|c a]; [destruct k; destruct n; reflexivity|]. cbn [skipn Nat.add nth]. apply IH.
Qed.
Lemma put_at_len buf o d : 0 <= o -> o + zlen d <= zlen buf -> zlen (put_at buf o d) = zlen buf.
Proof. intros H1 H2. unfold put_at, zlen in *. rewrite !app_length, firstn_length, skipn_length. lia. Qed.
Lemma put_at_byte buf o d i : 0 <= o -> o + zlen d <= zlen buf -> 0 <= i < o + zlen d ->
  byte_at (put_at buf o d) i = if i <? o then byte_at buf i else byte_at d (i - o).
Proof.
  intros H1 H2 Hi. unfold put_at. assert (HL : zlen (firstn (Z.to_nat o) buf) = o). { pose proof (zlen_nonneg d). unfold zlen in *. rewrite firstn_length. lia. }
  destruct (i <? o) eqn:EI.
  - rewrite byte_at_app_l by lia. apply byte_at_firstn. lia.
  - rewrite byte_at_app_r by lia. rewrite HL. apply byte_at_app_l. lia.
Qed.
Lemma byte_at_zeros n i : byte_at (zeros n) i = x00.
Proof. unfold byte_at, zeros. destruct (Nat.le_gt_cases (Z.to_nat n) (Z.to_nat i)); [apply nth_overflow; rewrite repeat_length; lia|]. apply nth_repeat. Qed.
Lemma zlen_zeros n : 0 <= n -> zlen (zeros n) = n.
Proof. intros. unfold zlen, zeros. rewrite repeat_length. lia. Qed.

(** one extent: what is put into the buffer *)
Definition fills (dev : device_arg) (D : list byte) (m : extentMapEntry) (x : extent) : Prop :=
  forall a n, ext_off x <= a -> 0 < n -> a + n <= ext_off x + ext_len x ->
  exists data, zlen data = n /\ (forall i, 0 <= i < n -> byte_at data i = ext_byte D x (a + i)) /\
    ((((x_diskByteNr m =? 0) || device_nil dev = true) /\ data = zeros n) \/
     (((x_diskByteNr m =? 0) || device_nil dev = false) /\ device_read dev n (i64 (i64 (x_physOffset m) + i64 (a - ext_off x))) = (data, None))).
Section Loop.
  Variables (dev : device_arg) (D : list byte) (off n fin : Z) (all : list extent).
  Hypotheses (Hoff : 0 <= off) (Hn : off + n < 2^63) (Hall : chain 0 all fin) (Hfin : fin < 2^63).
  (** bytes found so far are right; either they reach up to [s] or the loop is about to end *)
  Definition inv (s : Z) (buf : list byte) (got : Z) : Prop :=
    zlen buf = n /\ 0 <= got <= n /\ (forall i, 0 <= i < got -> byte_at buf i = file_byte D all (off + i)) /\
    ((s <= off /\ got = 0) \/ (off < s /\ 0 < got /\ got = s - off) \/ (off < s /\ (0 < got \/ n = 0) /\ got <= s - off /\ n - got <= s - off)).
  Lemma read_loop_ok : forall m xs s buf got, Forall2 entry_for m xs -> Forall2 (fills dev D) m xs -> chain s xs fin -> incl xs all -> 0 <= s ->
    inv s buf got ->
    exists buf' got', read_loop dev m buf off got = Ok (Some (buf', got')) /\ zlen buf' = n /\ 0 <= got' <= n /\ got <= got' /\
      (forall i, 0 <= i < got' -> byte_at buf' i = file_byte D all (off + i)) /\ (got' = 0 \/ off + got' <= fin) /\
      (0 < n -> off < fin -> 0 < got') /\
      (forall x, In x xs -> ext_off x <= off -> off < ext_off x + ext_len x -> got' >= Z.min n (ext_off x + ext_len x - off)).
  Proof using Hoff Hn Hall Hfin.
    induction m as [|e m IH]; intros xs s buf got HE HF HC HI Hs (Hb & Hg & Hbytes & HS); inversion HE as [|? x ? xs' He HE' [EQ1 EQ2] EQ3]; subst.
    - cbn [chain] in HC. exists buf, got. split; [reflexivity|]. repeat split; try lia; try assumption. intros x [].
    - cbn [chain] in HC. destruct HC as (Ho & HL & HC). inversion HF as [|? ? ? ? Hf HF']; subst. destruct He as (Hfo & Hle & Hx).
      pose proof (chain_range _ _ _ HC) as [Hsf _]. cbn [read_loop]. cbv zeta. rewrite Hfo, Hle.
      rewrite (u64_small (ext_off x + ext_len x)) by (unfold is_u64; lia). rewrite (i64_small (ext_off x + ext_len x)) by lia. rewrite (i64_small (ext_off x)) by lia.
      rewrite (i64_small (off + (zlen buf - got))) by lia.
      assert (HI' : incl xs' all) by (intros y Hy; apply HI; right; exact Hy).
      destruct (ext_off x + ext_len x <=? off) eqn:E1.
      { destruct (IH xs' (ext_off x + ext_len x) buf got) as (buf' & got' & R & P1 & P2 & P3 & P4 & P5 & P6 & P7); try assumption; try lia.
        { split; [exact Hb|]. split; [exact Hg|]. split; [exact Hbytes|]. lia. }
        exists buf', got'. split; [exact R|]. repeat split; try assumption; try lia. intros y [<-|Hy]; [lia|exact (P7 y Hy)]. }
      destruct (off + (zlen buf - got) <=? ext_off x) eqn:E2.
      { exists buf, got. split; [reflexivity|]. repeat split; try lia; try assumption.
        intros y [<-|Hy] H1 H2; [lia|]. destruct (chain_range _ _ _ HC) as [_ HR]. specialize (HR y Hy). lia. }
      set (rs := if off <? ext_off x then ext_off x else off). set (re := if ext_off x + ext_len x <? off + (zlen buf - got) then ext_off x + ext_len x else off + (zlen buf - got)).
      assert (Hrs : rs = Z.max off (ext_off x)) by (unfold rs; destruct (off <? ext_off x) eqn:EQ; lia).
      assert (Hre : re = Z.min (ext_off x + ext_len x) (off + (zlen buf - got))) by (unfold re; destruct (ext_off x + ext_len x <? off + (zlen buf - got)) eqn:EQ; lia).
      clearbody rs re. destruct (re <=? rs) eqn:E3.
      { assert (HN0 : n = 0) by lia.
        destruct (IH xs' (ext_off x + ext_len x) buf got) as (buf' & got' & R & P1 & P2 & P3 & P4 & P5 & P6 & P7); try assumption; try lia.
        { split; [exact Hb|]. split; [exact Hg|]. split; [exact Hbytes|]. lia. }
        exists buf', got'. split; [exact R|]. repeat split; try assumption; try lia. all: intros y [<-|Hy]; [lia|exact (P7 y Hy)]. } rewrite (i64_small (re - rs)) by lia. rewrite (i64_small (rs - off)) by lia.
      assert (Hgot : rs - off = got) by lia. rewrite Hgot.
      destruct (Hf rs (re - rs)) as (data & Hdl & Hdb & HD); [lia|lia|lia|].
      assert (Hput : zlen (put_at buf got data) = n) by (rewrite put_at_len; lia).
      assert (Hb' : forall i, 0 <= i < got + (re - rs) -> byte_at (put_at buf got data) i = file_byte D all (off + i)).
      { intros i Hi. rewrite put_at_byte by lia. destruct (i <? got) eqn:EI; [apply Hbytes; lia|]. rewrite Hdb by lia.
        rewrite (chain_byte D _ _ _ x (off + i) Hall); [f_equal; lia|apply HI; left; reflexivity|]. unfold covers. lia. }
      assert (STEP : exists buf' got', read_loop dev m (put_at buf got data) off (got + (re - rs)) = Ok (Some (buf', got')) /\ zlen buf' = n /\ 0 <= got' <= n /\ got <= got' /\
        (forall i, 0 <= i < got' -> byte_at buf' i = file_byte D all (off + i)) /\ (got' = 0 \/ off + got' <= fin) /\ (0 < n -> off < fin -> 0 < got') /\
        (forall y, In y (x :: xs') -> ext_off y <= off -> off < ext_off y + ext_len y -> got' >= Z.min n (ext_off y + ext_len y - off))).
      { destruct (IH xs' (ext_off x + ext_len x) (put_at buf got data) (got + (re - rs))) as (buf' & got' & R & P1 & P2 & P3 & P4 & P5 & P6 & P7); try assumption; try lia.
        { split; [exact Hput|]. split; [lia|]. split; [exact Hb'|]. lia. }
        exists buf', got'. split; [exact R|]. repeat split; try assumption; try lia. intros y [<-|Hy]; [lia|exact (P7 y Hy)]. }
      destruct HD as [[HD1 ->]|[HD1 HD2]]; rewrite HD1.
      + replace ((0 <=? got) && (got + (re - rs) <=? zlen buf)) with true by lia. exact STEP.
      + rewrite (i64_small (got + (re - rs))) by lia. unfold go_slice. unfold scap, sl. cbn [s_arr s_len].
        replace ((0 <=? got) && (got <=? got + (re - rs)) && (got + (re - rs) <=? zlen buf)) with true by lia. cbn [rbind s_len].
        replace (got + (re - rs) - got) with (re - rs) by lia. rewrite HD2. exact STEP.
  Qed.
End Loop.
Lemma good_fills dev D m x : reads_from D dev -> ext_readable dev x -> zlen D < 2^63 -> entry_for m x -> on_device D x -> is_u64 (match x with Disk _ _ src => src | _ => 0 end) -> 0 <= ext_off x -> ext_off x + ext_len x < 2^63 -> fills (Reader dev) D m x.
Proof.
  intros HR HG HDl (Hfo & Hle & Hx) Hdev Hu H0 Hmax a n Ha Hn Hend. destruct x as [o d|o k|o k src]; [destruct Hx| |]; cbn [ext_off ext_len on_device] in *.
  - exists (zeros n). split; [apply zlen_zeros; lia|]. split; [intros i Hi; rewrite byte_at_zeros; reflexivity|]. left. split; [|reflexivity]. lia.
  - destruct Hx as [Hnz Hp]. unfold is_u64 in Hu. rewrite Hp. rewrite (i64_small src) by lia. rewrite (i64_small (a - o)) by lia. rewrite (i64_small (src + (a - o))) by lia.
    unfold ext_readable, readable in HG. specialize (HG n (src + (a - o))). specialize (HR n (src + (a - o))). destruct (dev n (src + (a - o))) as [data err] eqn:ED. cbn [snd] in HG.
    destruct HR as [_ HR]. destruct HR as (HR1 & HR2 & HR3); [lia|lia|]. rewrite HG in ED, HR3 by lia. specialize (HR3 eq_refl). exists data. split; [exact HR3|]. split.
    + intros i Hi. rewrite HR2. rewrite byte_at_firstn by (unfold zlen in HR3; lia). rewrite byte_at_skipn by lia. cbn [ext_byte]. f_equal. lia.
    + right. split; [cbn [device_nil]; rewrite orb_false_r; lia|]. cbn [device_read]. exact ED.
Qed.

Definition srcs_ok (x : extent) : Prop := is_u64 (match x with Disk _ _ src => src | _ => 0 end).
Lemma is_extent_src q ke x : is_extent q ke x -> srcs_ok x.
Proof.
  destruct ke as [k e]. intros [(d & _ & _ & ->)|[(t & n & _ & _ & _ & _ & ->)|(t & n & nr & id & phys & o & _ & _ & _ & _ & _ & _ & _ & ->)]]; unfold srcs_ok, is_u64; lia.
Qed.
Lemma Forall2_fills dev D m xs a b : reads_from D dev -> Forall (ext_readable dev) xs -> zlen D < 2^63 -> Forall2 entry_for m xs -> Forall (on_device D) xs -> Forall srcs_ok xs -> chain a xs b -> 0 <= a -> b < 2^63 -> Forall2 (fills (Reader dev) D) m xs.
Proof.
  intros HG HRd HDl HE HD HS HC Ha Hb. pose proof (chain_range _ _ _ HC) as [_ HR]. clear HC. induction HE as [|e x m xs He HE IH]; constructor; inversion HD; inversion HS; inversion HRd; subst.
  - destruct (HR x (or_introl eq_refl)) as (R1 & R2 & R3). apply good_fills; try assumption; lia.
  - apply IH; try assumption. intros y Hy. apply HR. right. exact Hy.
Qed.
Lemma Read_result dev m buf off buf' got : 0 <= off -> read_loop dev m buf off 0 = Ok (Some (buf', got)) -> 0 <= got <= zlen buf' ->
  extentFile_Read dev m buf off = Ok (firstn (Z.to_nat got) buf', OK).
Proof.
  intros Ho H Hg. unfold extentFile_Read. replace (off <? 0) with false by lia. rewrite H. cbn [rbind]. destruct (got <? zlen buf') eqn:EQ.
  - unfold go_to, go_slice, scap, sl. cbn [s_arr s_len]. replace ((0 <=? 0) && (0 <=? got) && (got <=? zlen buf')) with true by lia. cbn [rbind]. unfold sbytes. cbn [s_arr s_len].
    change (Z.to_nat 0) with 0%nat. rewrite Z.sub_0_r. reflexivity.
  - rewrite firstn_all2; [reflexivity|]. unfold zlen in *. lia.
Qed.
(** what Open gives for a file whose extents are on disk or holes *)
Lemma Open_extents q n xs : Forall2 (is_extent q) (st_items (q_extents q (n_owner n) (n_inode n))) xs -> st_end (q_extents q (n_owner n) (n_inode n)) = Ok tt ->
  xs <> [] -> Forall (fun x => ~ is_inline x) xs -> exists m, Open q n = Ok (Some (ExtentFile m), OK) /\ Forall2 entry_for m xs.
Proof.
  intros HX HE HN HI. unfold Open. destruct (map_entries_for _ _ _ HX HI) as (m & HM & HF). exists m. split; [|exact HF].
  destruct (st_items (q_extents q (n_owner n) (n_inode n))) as [|[k e] l] eqn:EL; [inversion HX; subst; congruence|].
  unfold newExtentFile. rewrite EL, HE. inversion HX as [|? x ? xs' H1 H2]; subst. inversion HI; subst. unfold FileExtentItem_IsInline.
  assert (HT : exists t, FileExtentItem_Type e = Ok t /\ t <> 0).
  { destruct H1 as [(d & _ & _ & ->)|[(t & k1 & T & T0 & _)|(t & k1 & nr & id & phys & o & T & T0 & _)]]; [exfalso; match goal with H : ~ is_inline _ |- _ => apply H; exact Logic.I end|exists t; auto|exists t; auto]. }
  destruct HT as (t & -> & Ht). cbn [rbind]. change FileExtentInline with 0. replace (t =? 0) with false by lia. rewrite HM. reflexivity.
Qed.

(** C53.  For a mounted file whose extents lie on the device or are holes and follow each
    other without gaps up to [fin]: a read of [zlen buf] bytes at [off] returns correct
    bytes, at least one if there is any, and all of them up to the end of the extent that
    contains [off].  All that is needed of the device is that the file's own bytes can be
    read.  (It may return less than asked for: C53_short_refuted.) *)
Theorem C53_readable_partial dev D q n xs fin buf off :
  Forall2 (is_extent q) (st_items (q_extents q (n_owner n) (n_inode n))) xs -> st_end (q_extents q (n_owner n) (n_inode n)) = Ok tt ->
  xs <> [] -> Forall (fun x => ~ is_inline x) xs -> chain 0 xs fin -> fin < 2^63 -> Forall (on_device D) xs ->
  reads_from D dev -> Forall (ext_readable dev) xs -> zlen D < 2^63 -> 0 <= off -> off + zlen buf < 2^63 ->
  exists f d, Open q n = Ok (Some f, OK) /\ file_Read (Reader dev) f buf off = Ok (d, OK) /\
    zlen d <= Z.max 0 (Z.min (zlen buf) (fin - off)) /\
    (forall i, 0 <= i < zlen d -> byte_at d i = file_byte D xs (off + i)) /\
    (0 < zlen buf -> off < fin -> 0 < zlen d) /\
    (forall x, In x xs -> ext_off x <= off -> off < ext_off x + ext_len x -> zlen d >= Z.min (zlen buf) (ext_off x + ext_len x - off)).
Proof.
  intros HX HE HN HI HC Hfin HD HG HRd HDl Ho Hmax. destruct (Open_extents q n xs HX HE HN HI) as (m & HOp & HM). exists (ExtentFile m).
  assert (HS : Forall srcs_ok xs). { clear - HX. induction HX; constructor; [eapply is_extent_src; eassumption|assumption]. }
  pose proof (Forall2_fills dev D m xs 0 fin HG HRd HDl HM HD HS HC (Z.le_refl 0) Hfin) as HF.
  destruct (read_loop_ok (Reader dev) D off (zlen buf) fin xs Ho Hmax HC Hfin m xs 0 buf 0 HM HF HC (incl_refl _) (Z.le_refl 0)) as (buf' & got & R & P1 & P2 & P3 & P4 & P5 & P6 & P7).
  { split; [reflexivity|]. split; [pose proof (zlen_nonneg buf); lia|]. split; [intros i Hi; lia|]. lia. }
  exists (firstn (Z.to_nat got) buf'). cbn [file_Read]. rewrite (Read_result _ _ _ _ _ _ Ho R) by lia.
  assert (HL : zlen (firstn (Z.to_nat got) buf') = got). { unfold zlen in *. rewrite firstn_length. lia. } rewrite HL.
  split; [exact HOp|]. split; [reflexivity|]. split; [lia|]. split; [intros i Hi; rewrite byte_at_firstn by lia; apply P4; exact Hi|]. split; [exact P6|exact P7].
Qed.
(** in particular if the device has no faults *)
Theorem C53_prefix_partial dev D q n xs fin buf off :
  Forall2 (is_extent q) (st_items (q_extents q (n_owner n) (n_inode n))) xs -> st_end (q_extents q (n_owner n) (n_inode n)) = Ok tt ->
  xs <> [] -> Forall (fun x => ~ is_inline x) xs -> chain 0 xs fin -> fin < 2^63 -> Forall (on_device D) xs ->
  good_device D dev -> zlen D < 2^63 -> 0 <= off -> off + zlen buf < 2^63 ->
  exists f d, Open q n = Ok (Some f, OK) /\ file_Read (Reader dev) f buf off = Ok (d, OK) /\
    zlen d <= Z.max 0 (Z.min (zlen buf) (fin - off)) /\
    (forall i, 0 <= i < zlen d -> byte_at d i = file_byte D xs (off + i)) /\
    (0 < zlen buf -> off < fin -> 0 < zlen d) /\
    (forall x, In x xs -> ext_off x <= off -> off < ext_off x + ext_len x -> zlen d >= Z.min (zlen buf) (ext_off x + ext_len x - off)).
Proof.
  intros HX HE HN HI HC Hfin HD HG HDl Ho Hmax. apply C53_readable_partial; try assumption; [apply HG|]. apply Forall_forall. intros x Hx. destruct x as [| |o k src]; cbn [ext_readable]; [exact Logic.I|exact Logic.I|].
  intros n' b Hb Hn' He. assert (HU : 0 <= src). { assert (HS : Forall srcs_ok xs) by (clear - HX; induction HX; constructor; [eapply is_extent_src; eassumption|assumption]). rewrite Forall_forall in HS. exact (proj1 (HS _ Hx)). }
  rewrite Forall_forall in HD. pose proof (HD _ Hx) as HD'. cbn [on_device] in HD'. apply (proj2 HG); lia.
Qed.
Print Assumptions C53_prefix_partial.

(** C53 for a file that consists of one inline extent *)
Theorem C53_inline_partial dev q n k e d buf off :
  st_items (q_extents q (n_owner n) (n_inode n)) = [(k, e)] -> FileExtentItem_Type e = Ok 0 -> FileExtentItem_Data e = Ok d ->
  0 <= off <= zlen d -> off + zlen buf < 2^63 ->
  exists f, Open q n = Ok (Some f, OK) /\ file_Read dev f buf off = Ok (firstn (length buf) (skipn (Z.to_nat off) d), OK).
Proof.
  intros HX HT HD Ho Hm. exists (DataFile d). unfold Open. rewrite HX. unfold FileExtentItem_IsInline. rewrite HT. cbn [rbind]. change (0 =? FileExtentInline) with true. cbv iota. rewrite HD. split; [reflexivity|].
  cbn [file_Read]. pose proof (zlen_nonneg buf). rewrite i64_small by lia. cbv zeta. set (en := if zlen d <? off + zlen buf then zlen d else off + zlen buf). assert (Hen : en = Z.min (zlen d) (off + zlen buf)) by (unfold en; destruct (zlen d <? off + zlen buf) eqn:EQ; lia). clearbody en.
  unfold go_slice, scap, sl. cbn [s_arr s_len]. replace ((0 <=? off) && (off <=? en) && (en <=? zlen d)) with true by lia. cbn [rbind]. unfold sbytes. cbn [s_arr s_len]. do 2 f_equal.
  destruct (Z.le_ge_cases (zlen d) (off + zlen buf)) as [HC|HC].
  - rewrite !firstn_all2; [reflexivity| |]; rewrite skipn_length; unfold zlen in *; lia.
  - f_equal. unfold zlen in *. lia.
Qed.
Print Assumptions C53_inline_partial.

(** C57.  If the file system is created with a nil device, all bytes that are not inline read as zero. *)
Theorem C57_zeroes_partial q n xs fin buf off :
  Forall2 (is_extent q) (st_items (q_extents q (n_owner n) (n_inode n))) xs -> st_end (q_extents q (n_owner n) (n_inode n)) = Ok tt ->
  xs <> [] -> Forall (fun x => ~ is_inline x) xs -> chain 0 xs fin -> fin < 2^63 -> 0 <= off -> off + zlen buf < 2^63 ->
  exists f d, Open q n = Ok (Some f, OK) /\ file_Read NilInterface f buf off = Ok (d, OK) /\ Forall (fun c => c = x00) d /\
    (0 < zlen buf -> off < fin -> 0 < zlen d) /\
    (forall x, In x xs -> ext_off x <= off -> off < ext_off x + ext_len x -> zlen d >= Z.min (zlen buf) (ext_off x + ext_len x - off)).
Proof.
  intros HX HE HN HI HC Hfin Ho Hmax. destruct (Open_extents q n xs HX HE HN HI) as (m & HOp & HM). exists (ExtentFile m).
  assert (HZ : forall i, file_byte [] xs i = x00).
  { intros i. unfold file_byte. destruct (List.find _ (rev xs)) as [x|] eqn:EF; [|reflexivity]. apply find_some in EF as [Hin _]. apply in_rev in Hin. rewrite Forall_forall in HI. specialize (HI x Hin).
    destruct x as [o d|o k|o k src]; [destruct HI; exact Logic.I|reflexivity|]. cbn [ext_byte]. unfold byte_at. destruct (Z.to_nat (src + (i - o))); reflexivity. }
  assert (HF : Forall2 (fills NilInterface []) m xs).
  { clear - HM HI. induction HM as [|e x m xs He HM IH]; constructor; inversion HI; subst; [|apply IH; assumption]. intros a k Ha Hk Hb. exists (zeros k). split; [apply zlen_zeros; lia|]. split.
    - intros i Hi. rewrite byte_at_zeros. destruct x as [o d|o l|o l src]; [match goal with H : ~ is_inline _ |- _ => destruct H; exact Logic.I end|reflexivity|]. cbn [ext_byte]. unfold byte_at. destruct (Z.to_nat _); reflexivity.
    - left. split; [cbn [device_nil]; apply orb_true_r|reflexivity]. }
  destruct (read_loop_ok NilInterface [] off (zlen buf) fin xs Ho Hmax HC Hfin m xs 0 buf 0 HM HF HC (incl_refl _) (Z.le_refl 0)) as (buf' & got & R & P1 & P2 & P3 & P4 & P5 & P6 & P7).
  { split; [reflexivity|]. split; [pose proof (zlen_nonneg buf); lia|]. split; [intros i Hi; lia|]. lia. }
  exists (firstn (Z.to_nat got) buf'). cbn [file_Read]. rewrite (Read_result _ _ _ _ _ _ Ho R) by lia.
  assert (HL : zlen (firstn (Z.to_nat got) buf') = got). { unfold zlen in *. rewrite firstn_length. lia. } rewrite HL.
  split; [exact HOp|]. split; [reflexivity|]. split; [|split; [exact P6|exact P7]].
  apply Forall_forall. intros c Hc. apply (In_nth _ _ x00) in Hc as (i & Hi & <-). specialize (P4 (Z.of_nat i)). rewrite HZ in P4. unfold byte_at in P4. rewrite Nat2Z.id in P4.
  pose proof (byte_at_firstn (Z.to_nat got) buf' (Z.of_nat i)) as HB. unfold byte_at in HB. rewrite Nat2Z.id in HB. rewrite HB by (unfold zlen in HL; lia). apply P4. unfold zlen in HL; lia.
Qed.
Print Assumptions C57_zeroes_partial.

(** ** counterexamples.  File 258: two extents of four bytes each, adjacent in the file *)
Definition chunk0 : item := (3, mkKey 256 228 1000, 7, itemv (ser (chunk_fields (ch28 20)))).
Definition two_ext (off2 : Z) : queries := ixq [irec 5 258 (off2 + 4); reg 5 258 0 1000 0 4; reg 5 258 off2 1004 0 4; chunk0].
Definition dev40 : list byte := bz_s [0;0;0;0;0;0;0;0;0;0;0;0;0;0;0;0;0;0;0;0;65;66;67;68;69;70;71;72].
Definition stale (n : nat) : list byte := repeat xff n.
Definition read258 (dev : device_arg) (q : queries) (buf : list byte) (off : Z) : Res (list byte * status) :=
  ' (f, st) <- Open q (newRescueNode 5 258) ;; match f with Some f => file_Read dev f buf off | None => Ok ([], st) end.
(** C53 is false: reading 6 bytes at offset 2 of an 8 byte file gives 4 bytes; the second
    extent is cut off by the number of bytes already read *)
Theorem C53_short_refuted : read258 (Reader (file_reader dev40)) (two_ext 4) (stale 6) 2 = Ok (bz_s [67; 68; 69; 70], OK) /\
  read258 (Reader (file_reader dev40)) (two_ext 4) (stale 8) 0 = Ok (bz_s [65; 66; 67; 68], OK) /\
  (exists xs, Forall2 (is_extent (two_ext 4)) (st_items (q_extents (two_ext 4) 5 258)) xs /\ chain 0 xs 8 /\
     map (file_byte dev40 xs) [2; 3; 4; 5; 6; 7] = bz_s [67; 68; 69; 70; 71; 72]).
Proof.
  split; [vm_compute; reflexivity|]. split; [vm_compute; reflexivity|]. exists [Disk 0 4 20; Disk 4 4 24]. split; [|split; [cbn; lia|vm_compute; reflexivity]].
  set (l := st_items _). vm_compute in l. subst l. apply Forall2_cons; [|apply Forall2_cons; [|apply Forall2_nil]]; right; right.
  - exists 1, 4, 1000, 1, 20, 0. repeat split; try (vm_compute; reflexivity); discriminate.
  - exists 1, 4, 1004, 1, 24, 0. repeat split; try (vm_compute; reflexivity); discriminate.
Qed.
(** a gap between extents (legal with the no-holes feature) is not zero-filled: a read that starts
    in the gap returns what was in the buffer before, and not the bytes after the gap *)
Theorem C53_gap_refuted : forall b1 b2 b3 b4, read258 (Reader (file_reader dev40)) (two_ext 8) [b1; b2; b3; b4; b1; b1; b1; b1] 4 = Ok ([b1; b2; b3; b4], OK).
Proof. intros. vm_compute. reflexivity. Qed.
(** the same if the device ends before the extent: io.EOF is ignored *)
Theorem C53_device_end_refuted : forall b1 b2 b3 b4, read258 (Reader (file_reader (firstn 22 dev40))) (two_ext 4) [b1; b2; b3; b4] 0 = Ok ([x41; x42; b3; b4], OK).
Proof. intros. vm_compute. reflexivity. Qed.
(** extents after an inline extent are not read at all *)
Theorem C53_inline_first_refuted : read258 (Reader (file_reader dev40)) (ixq [irec 5 258 7; inl 5 258 0 b_abc; reg 5 258 3 1000 0 4; chunk0]) (stale 4) 3 = Ok ([], OK) /\
  read258 (Reader (file_reader dev40)) (ixq [irec 5 258 7; inl 5 258 0 b_abc; reg 5 258 3 1000 0 4; chunk0]) (stale 4) 4 = Panic.
Proof. split; vm_compute; reflexivity. Qed.
(** C57 is false for the mount command: without a device it passes a nil *os.File, which is not a
    nil interface, so reading a disk extent fails with EIO *)
Theorem C57_refuted : read258 NilFile (two_ext 4) (stale 4) 0 = Ok ([], EIO) /\ read258 NilInterface (two_ext 4) (stale 4) 0 = Ok (zeros 4, OK).
Proof. split; vm_compute; reflexivity. Qed.
Print Assumptions C53_short_refuted. Print Assumptions C53_gap_refuted. Print Assumptions C53_device_end_refuted. Print Assumptions C53_inline_first_refuted. Print Assumptions C57_refuted.
(** the hypotheses of C53_prefix_partial and C57_zeroes_partial hold for this file *)
Example C53_ex : exists f d, Open (two_ext 4) (newRescueNode 5 258) = Ok (Some f, OK) /\ file_Read (Reader (file_reader dev40)) f (stale 3) 4 = Ok (d, OK) /\ zlen d >= 3.
Proof.
  destruct (C53_prefix_partial (file_reader dev40) dev40 (two_ext 4) (newRescueNode 5 258) [Disk 0 4 20; Disk 4 4 24] 8 (stale 3) 4) as (f & d & H1 & H2 & _ & _ & _ & H3).
  - set (l := st_items _). vm_compute in l. subst l. apply Forall2_cons; [|apply Forall2_cons; [|apply Forall2_nil]]; right; right.
    + exists 1, 4, 1000, 1, 20, 0. repeat split; try (vm_compute; reflexivity); discriminate.
    + exists 1, 4, 1004, 1, 24, 0. repeat split; try (vm_compute; reflexivity); discriminate.
  - vm_compute; reflexivity.
  - discriminate.
  - repeat constructor; intros [].
  - cbn; lia.
  - lia.
  - repeat constructor; vm_compute; discriminate.
  - apply file_reader_good.
  - vm_compute; reflexivity.
  - lia.
  - vm_compute; reflexivity.
  - exists f, d. split; [exact H1|]. split; [exact H2|]. specialize (H3 (Disk 4 4 24)). cbn [ext_off ext_len] in H3. change (zlen (stale 3)) with 3 in H3. change (Z.min 3 (4 + 4 - 4)) with 3 in H3. apply H3; [right; left; reflexivity|lia|lia].
Qed.
Example C53_inline_ex : read258 NilFile (ixq [irec 5 258 3; inl 5 258 0 b_abc]) (stale 2) 1 = Ok (bz_s [98; 99], OK).
Proof. vm_compute. reflexivity. Qed.

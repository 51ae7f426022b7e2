(** Property theorem C34: ParseBuffer. *)
From Verif Require Import Go GoProofs ParseBuf.
From Coq Require Import ZifyBool ZifyNat ZifyN.
Ltac Zify.zify_post_hook ::= Z.div_mod_to_equations.

(** ** specification: a list of requests, answered from consecutive bytes *)
Inductive req := R8 | R16 | R32 | R64 | RTime | RBytes (n : Z).
Definition width (r : req) : Z := match r with R8 => 1 | R16 => 2 | R32 => 4 | R64 => 8 | RTime => 12 | RBytes n => n end.
Inductive answer := AInt (v : Z) | ATime (sec nsec : Z) | ABytes (l : list byte).
Definition take (n : Z) (l : list byte) : list byte := firstn (Z.to_nat n) l.
Definition drop (n : Z) (l : list byte) : list byte := skipn (Z.to_nat n) l.
Definition expected (r : req) (l : list byte) : answer :=
  match r with
  | R8 => AInt (le_decode (take 1 l)) | R16 => AInt (le_decode (take 2 l)) | R32 => AInt (le_decode (take 4 l)) | R64 => AInt (le_decode (take 8 l))
  | RTime => ATime (i64 (le_decode (take 8 l))) (le_decode (take 4 (drop 8 l)))
  | RBytes n => ABytes (take n l)
  end.
Fixpoint expected_all (rs : list req) (l : list byte) : list answer :=
  match rs with [] => [] | r :: rs => expected r l :: expected_all rs (drop (width r) l) end.
Definition total (rs : list req) : Z := fold_right (fun r a => width r + a) 0 rs.
(** the calls *)
Definition call (r : req) : M answer :=
  match r with
  | R8 => mbind NextUint8 (fun v => mret (AInt v)) | R16 => mbind NextUint16 (fun v => mret (AInt v))
  | R32 => mbind NextUint32 (fun v => mret (AInt v)) | R64 => mbind NextUint64 (fun v => mret (AInt v))
  | RTime => mbind NextTime (fun t => mret (ATime (fst t) (snd t)))
  | RBytes n => mbind (Next n) (fun d => mret (ABytes (sbytes d)))
  end.
Fixpoint calls (rs : list req) : M (list answer) :=
  match rs with [] => mret [] | r :: rs => mbind (call r) (fun a => mbind (calls rs) (fun l => mret (a :: l))) end.

Lemma next_ok b n : slice_wf (pb_buf b) -> 0 <= pb_offset b -> 0 <= n <= Unread b ->
  exists d, Next n b = (mkPbuf (pb_buf b) (pb_offset b + n), Ok d) /\ sbytes d = take n (drop (pb_offset b) (sbytes (pb_buf b))) /\ s_len d = n /\ slice_wf d.
Proof.
  intros W H0 Hn. unfold Unread, PLen in Hn. unfold Next. unfold slice_wf, scap in *.
  destruct (go_slice (pb_buf b) (pb_offset b) (pb_offset b + n)) as [d| |] eqn:E.
  - exists d. split; [reflexivity|]. assert (Hhi : pb_offset b + n <= s_len (pb_buf b)) by lia. rewrite (go_slice_bytes _ _ _ _ W Hhi E). pose proof (go_slice_wf _ _ _ _ E) as Wd.
    apply go_slice_inv in E as (E1 & E2 & E3). rewrite E3 in *. cbn [s_len] in *. split; [|split; [lia|exact Wd]].
    unfold take, drop. do 2 f_equal. lia.
  - exfalso. rewrite go_slice_ok in E by (unfold scap; lia). discriminate.
  - exfalso. exact (go_slice_no_timeout _ _ _ E).
Qed.
Lemma take1 l : 1 <= zlen l -> le_decode (take 1 l) = bz (nth 0 l x00).
Proof. destruct l as [|a l]; [rewrite zlen_nil; lia|]. intros _. change (take 1 (a :: l)) with [a]. cbn [le_decode nth]. lia. Qed.
Lemma zlen_take_drop b n : slice_wf (pb_buf b) -> 0 <= pb_offset b -> 0 <= n <= Unread b -> zlen (take n (drop (pb_offset b) (sbytes (pb_buf b)))) = n.
Proof.
  intros W H0 Hn. unfold take, drop, Unread, PLen in *. rewrite zlen_firstn; [reflexivity|]. rewrite zlen_skipn; rewrite zlen_sbytes by exact W; lia.
Qed.
Lemma drop_drop a b l : 0 <= a -> 0 <= b -> drop a (drop b l) = drop (b + a) l.
Proof. intros Ha Hb. unfold drop. rewrite skipn_skipn'. f_equal. lia. Qed.
Lemma mbind_ok {A B} (m : M A) (f : A -> M B) b b' a : m b = (b', Ok a) -> mbind m f b = f a b'.
Proof. intros E. unfold mbind. rewrite E. reflexivity. Qed.
Lemma le_ok b n : slice_wf (pb_buf b) -> 0 <= pb_offset b -> 0 <= n <= Unread b ->
  next_le n b = (mkPbuf (pb_buf b) (pb_offset b + n), Ok (le_decode (take n (drop (pb_offset b) (sbytes (pb_buf b)))))).
Proof. intros W H0 Hn. destruct (next_ok b n W H0 Hn) as (d & E & D & _). unfold next_le. rewrite (mbind_ok _ _ _ _ _ E), D. reflexivity. Qed.
Lemma call_ok r b : slice_wf (pb_buf b) -> 0 <= pb_offset b -> 0 <= width r <= Unread b ->
  call r b = (mkPbuf (pb_buf b) (pb_offset b + width r), Ok (expected r (drop (pb_offset b) (sbytes (pb_buf b))))).
Proof.
  intros W H0 Hw. destruct r; cbn [width] in *; unfold call.
  - destruct (next_ok b 1 W H0 Hw) as (d & E & D & L & Wd). unfold NextUint8.
    assert (G : mbind (Next 1) (fun d b => (b, go_index d 0)) b = (mkPbuf (pb_buf b) (pb_offset b + 1), Ok (le_decode (take 1 (drop (pb_offset b) (sbytes (pb_buf b))))))).
    { rewrite (mbind_ok _ _ _ _ _ E). rewrite go_index_ok by lia. do 2 f_equal. rewrite <- D.
      assert (Z1 : zlen (sbytes d) = 1) by (rewrite zlen_sbytes by exact Wd; exact L).
      unfold sbytes in *. rewrite L in *. destruct (s_arr d) as [|x0 r]; [discriminate|]. change (firstn (Z.to_nat 1) (x0 :: r)) with [x0]. cbn [le_decode nth]. change (Z.to_nat 0) with 0%nat. cbn [nth]. lia. }
    rewrite (mbind_ok _ _ _ _ _ G). reflexivity.
  - rewrite (mbind_ok _ _ _ _ _ (le_ok b 2 W H0 Hw)). reflexivity.
  - rewrite (mbind_ok _ _ _ _ _ (le_ok b 4 W H0 Hw)). reflexivity.
  - rewrite (mbind_ok _ _ _ _ _ (le_ok b 8 W H0 Hw)). reflexivity.
  - set (b' := mkPbuf (pb_buf b) (pb_offset b + 8)).
    assert (E1 : NextUint64 b = (b', Ok (le_decode (take 8 (drop (pb_offset b) (sbytes (pb_buf b))))))) by (apply le_ok; [exact W|exact H0|lia]).
    assert (E2 : NextUint32 b' = (mkPbuf (pb_buf b) (pb_offset b + 12), Ok (le_decode (take 4 (drop 8 (drop (pb_offset b) (sbytes (pb_buf b)))))))).
    { rewrite drop_drop by lia. unfold NextUint32. rewrite (le_ok b' 4 W); [|cbn [b' pb_offset]; lia|unfold Unread, PLen in *; cbn [b' pb_buf pb_offset] in *; lia].
      cbn [b' pb_buf pb_offset]. do 2 f_equal. lia. }
    assert (E3 : NextTime b = (mkPbuf (pb_buf b) (pb_offset b + 12), Ok (i64 (le_decode (take 8 (drop (pb_offset b) (sbytes (pb_buf b))))), le_decode (take 4 (drop 8 (drop (pb_offset b) (sbytes (pb_buf b)))))))).
    { unfold NextTime. rewrite (mbind_ok _ _ _ _ _ E1), (mbind_ok _ _ _ _ _ E2). reflexivity. }
    rewrite (mbind_ok _ _ _ _ _ E3). reflexivity.
  - destruct (next_ok b n W H0 Hw) as (d & E & D & _). rewrite (mbind_ok _ _ _ _ _ E), D. reflexivity.
Qed.
(** any sequence of reads that fits answers the consecutive values, and the
    position advances by what was read *)
Theorem C34_sequential : forall rs b, slice_wf (pb_buf b) -> 0 <= pb_offset b -> Forall (fun r => 0 <= width r) rs -> total rs <= Unread b ->
  exists b', calls rs b = (b', Ok (expected_all rs (drop (pb_offset b) (sbytes (pb_buf b))))) /\
  pb_buf b' = pb_buf b /\ POffset b' = POffset b + total rs /\ POffset b' + Unread b' = PLen b.
Proof.
  induction rs as [|r rs IH]; intros b W H0 HF Ht; cbn [calls expected_all total fold_right] in *.
  - exists b. unfold mret, POffset, Unread. repeat split; lia.
  - inversion HF as [|? ? Hr HF']; subst. fold (total rs) in *.
    assert (0 <= total rs). { clear -HF'. induction HF'; cbn [total fold_right]; [lia|]. fold (total l). lia. }
    set (b1 := mkPbuf (pb_buf b) (pb_offset b + width r)).
    destruct (IH b1) as (b' & E & E1 & E2 & E3); [exact W|cbn [b1 pb_offset]; lia|exact HF'|unfold Unread, PLen in *; cbn [b1 pb_offset pb_buf]; lia|].
    exists b'. rewrite (mbind_ok _ _ _ _ _ (call_ok r b W H0 ltac:(lia))). fold b1. rewrite (mbind_ok _ _ _ _ _ E).
    cbn [b1 pb_buf pb_offset] in *. unfold POffset, PLen in *. cbn [b1 pb_buf pb_offset] in *. rewrite drop_drop by lia. repeat split; [exact E1|lia|lia].
Qed.
(** Rewind restarts: the same reads give the same answers *)
Theorem C34_rewind : forall b rs, slice_wf (pb_buf b) -> Forall (fun r => 0 <= width r) rs -> total rs <= PLen b ->
  exists b1 b2, Rewind b = (b1, Ok tt) /\ calls rs b1 = (b2, Ok (expected_all rs (sbytes (pb_buf b)))).
Proof.
  intros b rs W HF Ht. exists (mkPbuf (pb_buf b) 0).
  destruct (C34_sequential rs (mkPbuf (pb_buf b) 0)) as (b2 & E & _); [exact W|cbn; lia|exact HF|unfold Unread, PLen in *; cbn [pb_buf pb_offset]; lia|].
  exists b2. split; [reflexivity|exact E].
Qed.
(** reading beyond the end aborts and does not move -- if the buffer has no spare capacity *)
Theorem C34_beyond_partial : forall b n, scap (pb_buf b) = s_len (pb_buf b) -> 0 <= n -> Unread b < n -> Next n b = (b, Panic).
Proof.
  intros b n Hc H0 Hn. unfold Unread, PLen in Hn. unfold Next. rewrite go_slice_panic; [reflexivity|]. lia.
Qed.
(** with spare capacity (a sub-slice) the read succeeds with bytes behind the
    buffer, and Unread becomes negative *)
Theorem C34_beyond_refuted : forall b n, slice_wf (pb_buf b) -> 0 <= pb_offset b -> 0 <= n -> Unread b < n -> pb_offset b + n <= PCap b ->
  exists d, Next n b = (mkPbuf (pb_buf b) (pb_offset b + n), Ok d) /\ s_len d = n /\ Unread (mkPbuf (pb_buf b) (pb_offset b + n)) < 0.
Proof.
  intros b n W H0 Hn Hu Hc. unfold Next. rewrite go_slice_ok by (unfold PCap in Hc; lia). eexists. split; [reflexivity|]. unfold Unread, PLen in *. cbn [s_len pb_buf pb_offset]. split; lia.
Qed.
(** NextTime with 8 to 11 bytes left aborts after moving by 8 *)
Theorem C34_time_moves_refuted : forall b, slice_wf (pb_buf b) -> scap (pb_buf b) = s_len (pb_buf b) -> 0 <= pb_offset b -> 8 <= Unread b < 12 ->
  NextTime b = (mkPbuf (pb_buf b) (pb_offset b + 8), Panic).
Proof.
  intros b W Hc H0 Hu. unfold NextTime. rewrite (mbind_ok _ _ _ _ _ (le_ok b 8 W H0 ltac:(lia))). unfold mbind at 1, NextUint32, next_le, mbind.
  rewrite C34_beyond_partial; [reflexivity|exact Hc|lia|unfold Unread, PLen in *; cbn [pb_buf pb_offset]; lia].
Qed.
Example C34_ex : let b := NewParseBuffer (sl [x01;x02;x03;x04;x05;x06;x07]) in
  slice_wf (pb_buf b) /\ total [R8; R16; RBytes 2] <= Unread b /\ expected_all [R8; R16; RBytes 2] (sbytes (pb_buf b)) = [AInt 1; AInt 770; ABytes [x04; x05]].
Proof. vm_compute. repeat split; discriminate. Qed.
Example C34_ex2 : let b := NewParseBuffer (mkSlice (repeat x07 9) 2) in slice_wf (pb_buf b) /\ Unread b < 8 /\ pb_offset b + 8 <= PCap b.
Proof. vm_compute. repeat split; discriminate. Qed.
Print Assumptions C34_sequential. Print Assumptions C34_rewind. Print Assumptions C34_beyond_partial. Print Assumptions C34_beyond_refuted. Print Assumptions C34_time_moves_refuted.

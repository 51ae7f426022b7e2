(** Reads through the mount from a device that has errors (C74). *)
From Verif Require Import Go Layout KeyFmt IoUtil Path Fs Recover SpecFs SpecContent Rescue PropsRescueRead PropsRecoverEx.
From Coq Require Import List ZArith Lia. Import ListNotations.
#[local] Open Scope Z_scope.

(** every read of the device with content [D] either fails (I/O error; what is in the buffer then is
    unknown) or does what reading from a sound file does *)
Definition flaky (D : list byte) (dev : readerAt) : Prop := forall n off, snd (dev n off) = Some EOther \/ dev n off = file_reader D n off.

Lemma flaky_loop D dev : flaky D dev -> forall m buf off got,
  (read_loop (Reader dev) m buf off got = Ok None /\ exists n p, snd (dev n p) = Some EOther) \/
  read_loop (Reader dev) m buf off got = read_loop (Reader (file_reader D)) m buf off got.
Proof.
  intros HF. induction m as [|e m IH]; intros buf off got; [right; reflexivity|]. cbn [read_loop]. cbv zeta.
  destruct (_ <=? off); [apply IH|]. destruct (_ <=? i64 (x_fileOffset e)); [right; reflexivity|].
  set (rs := if off <? _ then _ else off). set (re := if _ <? i64 _ then _ else i64 _). destruct (re <=? rs); [apply IH|].
  cbn [device_nil]. destruct ((x_diskByteNr e =? 0) || false); [destruct (_ && _); [apply IH|right; reflexivity]|].
  destruct (go_slice (sl buf) _ _) as [s| |]; cbn [rbind]; [|right; reflexivity..]. cbn [device_read].
  set (p := i64 (i64 (x_physOffset e) + _)). destruct (HF (s_len s) p) as [HE|HE].
  - left. destruct (dev (s_len s) p) as [data err] eqn:ED. cbn [snd] in HE. rewrite HE. split; [reflexivity|]. exists (s_len s), p. rewrite ED. exact HE.
  - rewrite HE. destruct (file_reader D (s_len s) p) as [data [[|]|]]; [apply IH|right; reflexivity|apply IH].
Qed.
(** C74.  Whatever the file's extents: if the device has errors, a read either answers EIO without data,
    and some device read did fail, or it gives the very answer that it gives from a device without errors. *)
Theorem C74_device_errors : forall D dev f buf off, flaky D dev ->
  (file_Read (Reader dev) f buf off = Ok ([], EIO) /\ exists n p, snd (dev n p) = Some EOther) \/
  file_Read (Reader dev) f buf off = file_Read (Reader (file_reader D)) f buf off.
Proof.
  intros D dev f buf off HF. destruct f as [data|m]; [right; reflexivity|]. cbn [file_Read]. unfold extentFile_Read. destruct (off <? 0); [right; reflexivity|].
  destruct (flaky_loop D dev HF m buf off 0) as [[HL HE]| ->]; [|right; reflexivity]. left. rewrite HL. split; [reflexivity|exact HE].
Qed.
Print Assumptions C74_device_errors.
(** In particular data that arrives with status OK is right, for files whose extents follow each other without gaps. *)
Theorem C74_right_or_error : forall dev D q n xs fin buf off f d st,
  Forall2 (is_extent q) (st_items (q_extents q (n_owner n) (n_inode n))) xs -> st_end (q_extents q (n_owner n) (n_inode n)) = Ok tt ->
  xs <> [] -> Forall (fun x => ~ is_inline x) xs -> chain 0 xs fin -> fin < 2^63 -> Forall (on_device D) xs ->
  flaky D dev -> zlen D < 2^63 -> 0 <= off -> off + zlen buf < 2^63 ->
  Open q n = Ok (Some f, OK) -> file_Read (Reader dev) f buf off = Ok (d, st) ->
  (st = EIO /\ d = []) \/
  (st = OK /\ (forall i, 0 <= i < zlen d -> byte_at d i = file_byte D xs (off + i)) /\ (0 < zlen buf -> off < fin -> 0 < zlen d)).
Proof.
  intros dev D q n xs fin buf off f d st HX HE HN HI HC Hfin HD HF HDl Ho Hmax HOp HR.
  destruct (C53_prefix_partial (file_reader D) D q n xs fin buf off HX HE HN HI HC Hfin HD (file_reader_good D) HDl Ho Hmax) as (f' & d' & O' & R' & _ & B & L & _).
  assert (f' = f) by congruence. subst f'. destruct (C74_device_errors D dev f buf off HF) as [[H _]|H].
  - left. split; congruence.
  - right. assert (d' = d /\ st = OK) as [-> ->] by (split; congruence). auto.
Qed.
Print Assumptions C74_right_or_error.

(** a device whose sector at 24 cannot be read: the first extent of file 258 can be read, the second gives EIO *)
Definition bad24 : readerAt := fun n off => if (off <=? 24) && (24 <? off + n) then ([x58], Some EOther) else file_reader dev40 n off.
Lemma bad24_flaky : flaky dev40 bad24.
Proof. intros n off. unfold bad24. destruct (_ && _); auto. Qed.
Example C74_ex : read258 (Reader bad24) (two_ext 4) (stale 4) 0 = Ok (bz_s [65; 66; 67; 68], OK) /\ read258 (Reader bad24) (two_ext 4) (stale 4) 4 = Ok ([], EIO).
Proof. split; vm_compute; reflexivity. Qed.

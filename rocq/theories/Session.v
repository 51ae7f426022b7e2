(** pkg/btrfs/index/index_store.go: opening, transactions, inserts, crash.
    The bbolt database (external library, trusted model): the committed state of
    the file is [disk]; a transaction works on its own copy; Commit replaces the
    committed state atomically (bbolt's guarantee) or fails and leaves it. *)
From Verif Require Export Go Layout KeyFmt Bolt Store.

(** the committed state of the metadata file: no "index" bucket, or the bucket *)
Definition disk : Type := option bucket.

(** an open transaction: writable?, and the "index" bucket it sees/changes *)
Record tx := mkTx { tx_writable : bool; tx_bucket : bucket }.
(* index_store.go:44-57.  [ix_bucket] is ix.bucket != nil; it always denotes the
   bucket of the current transaction. *)
Record index := mkIndex {
  ix_disk : disk;            (** committed state of the file *)
  ix_readonly : bool;        (** db.IsReadOnly() *)
  ix_tx : option tx;
  ix_bucket : bool;
  ix_txNum : Z;
  ix_Generation : Z }.

(** what an operation reports *)
Inductive err := ENone | EErr.

(** Go's copy(dst, src) on byte slices, used in index_store.go:84, 220, 221 *)
Definition go_copy (dst src : list byte) : list byte := firstn (length dst) src ++ skipn (length src) dst.
(* index_store.go:218-221 *)
Definition insert_value (item data : list byte) : list byte :=
  let tc := repeat x00 (Z.to_nat ItemLen + length data) in
  let tc := go_copy tc item in
  firstn (Z.to_nat ItemLen) tc ++ go_copy (skipn (Z.to_nat ItemLen) tc) data.

(** arguments of one InsertItem call (index_store.go:213-214): the header contributes owner and generation *)
Record insertion := mkIns { i_key : Key; i_owner : Z; i_gen : Z; i_item : list byte; i_data : list byte }.
(* index_store.go:218-223 *)
Definition put_ins (b : bucket) (i : insertion) : bucket :=
  put b (newIndexKey (i_owner i) (i_key i) (i_gen i)) (insert_value (i_item i) (i_data i)).

(* index_store.go:233-243.  [ok]: does bbolt's Commit succeed (disk full, I/O
   error otherwise)?  Committing a read-only transaction is always an error and
   the transaction is forgotten. *)
Definition Commit (ok : bool) (ix : index) : index * err :=
  match ix_tx ix with
  | None => (ix, ENone)
  | Some t =>
      let good := tx_writable t && ok in
      (mkIndex (if good then Some (tx_bucket t) else ix_disk ix) (ix_readonly ix) None false 0 (ix_Generation ix),
       if good then ENone else EErr)
  end.
(* index_store.go:203-207; db.Begin(true) fails on a read-only database.  The
   bucket exists in every opened index, so tx.Bucket is not nil. *)
Definition begin_tx (writable : bool) (ix : index) : index * err :=
  if writable && ix_readonly ix
  then (mkIndex (ix_disk ix) (ix_readonly ix) None (ix_bucket ix) (ix_txNum ix) (ix_Generation ix), EErr)
  else match ix_disk ix with
       | Some b => (mkIndex (ix_disk ix) (ix_readonly ix) (Some (mkTx writable b)) true (ix_txNum ix) (ix_Generation ix), ENone)
       | None => (mkIndex (ix_disk ix) (ix_readonly ix) (Some (mkTx writable [])) false (ix_txNum ix) (ix_Generation ix), ENone)
       end.
(* index_store.go:193-208 *)
Definition ensureTx (ok : bool) (writable : bool) (ix : index) : index * err :=
  match ix_tx ix with
  | None => begin_tx writable ix
  | Some t =>
      if Bool.eqb (tx_writable t) writable then (ix, ENone)
      else let '(ix, e) := Commit ok ix in
           match e with EErr => (ix, EErr) | ENone => begin_tx writable ix end
  end.
(* index_store.go:213-231 *)
Definition InsertItem (ok : bool) (i : insertion) (ix : index) : Res (index * err) :=
  let '(ix, e) := ensureTx ok true ix in
  match e with
  | EErr => Ok (ix, EErr)
  | ENone =>
      match ix_tx ix, ix_bucket ix with
      | Some t, true =>
          let ix := mkIndex (ix_disk ix) (ix_readonly ix) (Some (mkTx (tx_writable t) (put_ins (tx_bucket t) i))) true (ix_txNum ix + 1) (ix_Generation ix) in
          if 10000 <? ix_txNum ix then Ok (Commit ok ix) else Ok (ix, ENone)
      | _, _ => Panic (* Put on a nil bucket *)
      end
  end.
(* index_store.go:182-191.  Rollback on a nil transaction panics. *)
Definition Close (ok : bool) (ix : index) : Res disk :=
  if ix_readonly ix
  then match ix_tx ix with Some _ => Ok (ix_disk ix) | None => Panic end
  else Ok (ix_disk (fst (Commit ok ix))).
(* index_store.go:251-260: [fn] may fail, or do anything to the bucket *)
Definition RawTx (ok : bool) (fn : bucket -> option bucket) (ix : index) : Res (index * err) :=
  let '(ix, e) := ensureTx ok true ix in
  match e with
  | EErr => Ok (ix, EErr)
  | ENone =>
      match ix_tx ix, ix_bucket ix with
      | Some t, true =>
          match fn (tx_bucket t) with
          | None => Ok (ix, EErr)
          | Some b => Ok (Commit ok (mkIndex (ix_disk ix) (ix_readonly ix) (Some (mkTx (tx_writable t) b)) true (ix_txNum ix) (ix_Generation ix)))
          end
      | _, _ => Panic
      end
  end.
(** queries go through ix.bucket (index_store.go:179, 354, 388, 435), which panics when it is nil *)
Definition with_bucket {A} (ix : index) (q : bucket -> Res A) : Res A :=
  match ix_tx ix, ix_bucket ix with Some t, true => q (tx_bucket t) | _, _ => Panic end.
(* index_store.go:431-437 *)
Definition ix_FindItem (ix : index) (owner : Z) (k : Key) : Res (option (list byte)) :=
  with_bucket ix (fun b => FindItem b (ix_Generation ix) owner k).
(* index_store.go:178-180 *)
Definition ix_Metadata (ix : index) : Res (option (list byte)) := with_bucket ix (fun b => Ok (get b metadataKey)).

(* index_store.go:154-174: the checks of an existing record *)
Definition check_metadata (o : Options) (m : list byte) : Res err :=
  v <- md_Version m ;;
  if negb (o_AllowOldVersion o) && (v <? MetadataVersion) then Ok EErr
  else if MetadataVersion <? v then Ok EErr
  else if o_AllowOldVersion o || o_ReadOnly o then Ok ENone
  else bs <- md_BlockSize m ;;
       if negb (bs =? u32 (o_BlockSize o)) then Ok EErr
       else f <- md_FSID m ;;
            if negb (bytes_eqb f (o_FSID o)) then Ok EErr else Ok ENone.
(* index_store.go:126-176: the function run by db.Update (committed if it
   returns nil) or db.View.  Returns the new committed state. *)
Definition checkUpdateMetadata (ok : bool) (o : Options) (d : disk) : Res (disk * err) :=
  match d with
  | None =>
      if o_ReadOnly o then Ok (d, EErr)
      else if ok then Ok (Some (put [] metadataKey (newIndexMetadata o)), ENone) else Ok (d, EErr)
  | Some b =>
      match get b metadataKey with
      | None =>
          if o_ReadOnly o then Ok (d, EErr)
          else if ok then Ok (Some (put b metadataKey (newIndexMetadata o)), ENone) else Ok (d, EErr)
      | Some m =>
          e <- check_metadata o m ;;
          (* db.Update commits the unchanged bucket; a failing commit is an error *)
          match e with
          | ENone => if o_ReadOnly o || ok then Ok (d, ENone) else Ok (d, EErr)
          | EErr => Ok (d, EErr)
          end
      end
  end.
(* index_store.go:94-97, 107-124.  bbolt.Open itself (locking, file creation) is
   assumed to succeed; a read-only open of a missing file is the error of
   os.Stat and not modelled further. *)
Definition openIndex (ok : bool) (o : Options) (d : disk) : Res (disk * option index) :=
  ' (d, e) <- checkUpdateMetadata ok o d ;;
  match e with
  | EErr => Ok (d, None)
  | ENone =>
      let '(ix, e) := ensureTx ok (negb (o_ReadOnly o)) (mkIndex d (o_ReadOnly o) None false 0 (o_Generation o)) in
      match e with ENone => Ok (d, Some ix) | EErr => Ok (d, None) end
  end.
(* index_store.go:108-110 *)
Definition ro_options : Options := mkOptions true 0 (repeat x00 16) max64 false.
(* index_store.go:99-105 *)
Definition OpenReadOnly (d : disk) : Res (disk * option index) := openIndex true ro_options d.

(** ** histories of calls on one open index (the operations of index_store.go:178-260 in any order) *)
Inductive op :=
| OInsert (i : insertion)
| OCommit
| OFind (owner : Z) (k : Key)
| ORaw (fn : bucket -> option bucket).
Definition step (o : op * bool) (ix : index) : Res (index * err) :=
  match fst o with
  | OInsert i => InsertItem (snd o) i ix
  | OCommit => Ok (Commit (snd o) ix)
  | OFind owner k => _ <- ix_FindItem ix owner k ;; Ok (ix, ENone)
  | ORaw fn => RawTx (snd o) fn ix
  end.
Fixpoint run (ops : list (op * bool)) (ix : index) : Res index :=
  match ops with
  | [] => Ok ix
  | o :: r => ' (ix', _) <- step o ix ;; run r ix'
  end.

(** pkg/ioutil/ioutil.go and pkg/btrfs/util.go *)
From Verif Require Export Go.

(** errors an io.ReaderAt can report *)
Inductive ioerr := EOF | EOther.
(** an io.ReaderAt: what ReadAt(p, off) with len(p) = n put at the front of p
    (its length is the returned count) and the returned error *)
Definition readerAt : Type := Z -> Z -> list byte * option ioerr.
(* ioutil.go:15-22: the block afterwards and the returned error.  Both
   branches of the inner if return nil. *)
Definition ReadBlockAt (r : readerAt) (block : list byte) (offset : Z) : list byte * option ioerr :=
  let '(data, err) := r (zlen block) (i64 offset) in
  let block' := data ++ skipn (length data) block in
  match err with
  | Some e => (block', Some e)
  | None => if zlen data =? zlen block then (block', None) else (block', None)
  end.
(** a reader over fixed content that fills as much as there is, like os.File or
    bytes.Reader: negative offsets are errors, EOF iff fewer bytes than asked *)
Definition file_reader (content : list byte) : readerAt := fun n off =>
  if off <? 0 then ([], Some EOther)
  else let d := firstn (Z.to_nat n) (skipn (Z.to_nat off) content) in
       (d, if zlen d <? n then Some EOF else None).

Definition SuperInfoOffset : Z := 0x10000.
Definition SuperInfoOffset2 : Z := 0x4000000.
Definition SuperInfoOffset3 : Z := 0x4000000000.
Definition SuperInfoOffset4 : Z := 0x4000000000000.
(* util.go:13-26; [seek] = what Seek(0, io.SeekEnd) returned: size and error.
   Returns size and whether err is nil. *)
Definition CheckDeviceSize (seek : Z * bool) (blockSize : Z) : Z * bool :=
  let '(size, ok) := seek in
  if ok then
    if u64 size <? blockSize then (u64 size, false)
    else if u64 size <? u64 (SuperInfoOffset2 + u64 (blockSize * 100)) then (u64 size, false)
    else (u64 size, true)
  else (u64 size, false).

# Formal model of btrfscue in Rocq/Coq 8.16.1 — design

(Written before the proofs; kept current as the model grows.)

## Modelling decisions

* **Integers.** Every Go integer is a `Z`; fixed width arithmetic that can wrap in the
  code is written with an explicit `mod` (`u16`, `u32`, `u64`) or two's complement
  conversion (`i64`). Theorems about `uint64` inputs carry the range hypothesis.
* **Bytes** are Coq's 256-constructor `Byte.byte`, so byte strings need no range hypothesis.
* **Slices** are a *backing list up to the capacity* plus a *length*: in Go `s[lo:hi]` is
  bounded by the capacity, not by the length, and several properties depend on it.
* **Outcomes.** `Res A := Ok a | Panic | Timeout`. `Panic` = Go run-time panic,
  `Timeout` = a loop used up its explicit fuel. A theorem of termination says some fuel
  gives `Ok`; non-termination says every fuel gives `Timeout`. Go `error`s are values.
* **bbolt** (external library) is a model: a bucket is a strictly sorted association list of
  byte strings, cursors are positions, transactions are a pending copy next to the durable
  copy. This is part of the trusted base.
* **Operating system** (recover): file tree with directories, files, symlinks, plus a log
  of mutating system calls and fault oracles.
* Printing (`Printf`, incl. the debug line of `Physical`, index_store.go:477; progress bar), cobra flag parsing, FUSE transport,
  signal handling and the OS scheduler are not modelled.

## Layers (rocq/theories)

Models (every definition cites the /repo lines it models):

| file | models |
|---|---|
| `Go.v` | outcomes, fixed-width arithmetic, slices, endian codecs, byte string order |
| `Layout.v` | pkg/btrfs/{slice,btrfs,leaf}.go |
| `KeyFmt.v` | pkg/btrfs/index/key_format.go, KeyCompare, KF, KL |
| `Bolt.v` | the part of bbolt used (trusted) |
| `Store.v` | pkg/btrfs/index/index_store.go queries (find, ranges, Physical) |
| `RangeItems.v` | the loop idiom `for r, d := ix.X(); r.HasNext(); d = r.Next()` as a list |
| `Path.v` | FindDirItemForPath |
| `Session.v` | Open / InsertItem / Commit / Close / RawTx state machine, crash |
| `Crc.v`, `Uuid.v`, `ToString.v`, `ParseBuf.v`, `IoUtil.v` | NameHash, pkg/uuid, to_string.go, parse_buffer.go, pkg/ioutil + util.go |
| `Identify.v` | internal/identify, cmd/identify.go, pkg/coding |
| `Recon.v` | cmd/recon.go |
| `Fs.v`, `Recover.v` | the operating system calls used by, and the whole of, cmd/recover.go |
| `Ls.v` | cmd/ls.go and cmd/dump_index.go up to the text handed to tabwriter / stdout |
| `Tabwriter.v` | text/tabwriter and utf8.RuneCount (Go standard library) as ls and identify use them; the report of identify |
| `Rescue.v`, `MountTop.v` | internal/rescuefs (node and file methods; the root and the metadata node) |
| `Cli.v`, `ReconCmd.v` | the Run functions of all commands, recon's command line |
| `Time.v`, `Fraction.v`, `Fixed.v`, `Stdout.v` | the text of a time, the number of samples, `%.6f`, what is printed besides results |
| `Conc.v` | interleavings of concurrent requests on the two unlocked caches |

Specifications, independent of the model: `SpecLayout.v` (packed structures, leaf blocks),
`SpecStore.v` (versions of a key), `SpecFs.v` (names and paths), `SpecContent.v` (file content
from extents), `SpecTree.v` (what a recovered tree looks like), `SpecDisk.v` (what the items of an image say), `SpecMount.v` (sessions of
requests and what a mounted tree must show), and the definitions at the
head of the `Props*.v` files.

Proofs: `GoProofs`, `LayoutProofs`, `LeafProofs`, `StructProofs`, `KeyProofs`, `StoreProofs`,
`RangeProofs`, `F64Proofs`, `RecoverProofs`, `PathProofs`, `FsProofs`, `TreeProofs`, `TreeRun`,
`TreeFull`, `DiskProofs`, `MkIndex` (concrete indexes). `Props*.v` hold the property theorems, the examples
beside them and `Print Assumptions` of each theorem.

## Trusted base

* **Coq 8.16.1's kernel** (with its `vm_compute` conversion); no `native_compute`, no plugins,
  no switched-off checks, no axioms of our own.
* **Print Assumptions.** Every theorem in MANIFEST.json is *Closed under the global context*
  except the following, which rest on axioms of Coq's standard library only
  (`ClassicalDedekindReals.sig_not_dec`, `ClassicalDedekindReals.sig_forall_dec`,
  `FunctionalExtensionality.functional_extensionality_dep`, `Classical_Prop.classic`; they
  come with `Coq.Reals` and with Flocq's lemmas about rounding):
  `C42_exact_partial`, `C42_enough_leaves_partial`, `C44_entropy`, `C44_empty`,
  `C102_wish`, `C102_exact`, `C102_monotone`, `C102_report`, `C102_all`, `C102_tiny`, `C102_negative_refuted`,
  `C103_fixed`, `C103_order`, `C103_entropy`, `C103_printed`, `C103_minus`, `C103_report`, `C103_sorted`, `C103_true_order`.
* **The models of what is not in /repo**: Go's slices, integers and map iteration
  order (any permutation); `sort.Sort`/`sort.Slice` (any permutation of the input that is sorted by
  Less); `sort.Search`; float64 as IEEE binary64 with round to nearest even
  (`Coq.Floats.SpecFloat`); `math.Log2` (a parameter in Identify.v; the real logarithm in C44; any function with an error bound in C103); `%.6f` (Fixed.v);
  `math/rand` (an arbitrary sequence of numbers in range); bbolt (`Bolt.v`, `Session.v`); the file
  system calls of `os` (`Fs.v`); `hash/crc32` tables (`Crc.v`); `filepath.Clean/Join`, `strings.Split`;
  `nodefs.NewDataFile` (`Rescue.v`).
* **The reading of the Go source**: the model was written by hand from the text of /repo; the
  citations beside the definitions are what to check it against.

### What is modelled, and how far

| /repo | modelled | not modelled |
|---|---|---|
| pkg/btrfs/{slice,btrfs,leaf,to_string,parse_buffer,util}.go | all accessors, printing of ids/types/keys, ParseBuffer, device size check | `int` overflow of buffer offsets beyond 2^63; CSum verification (the code has none) |
| pkg/btrfs/index | key format, metadata record, open, insert/commit/close, all queries, Physical, path lookup, V1 key upgrade function | bbolt's own file format, file locking and mmap; out-of-memory |
| pkg/uuid, pkg/ioutil, pkg/coding | everything | — |
| internal/identify, cmd/identify.go | collector, sampling, guess of the block size, report rows and their text with and without --machine (Tabwriter.v), the text of an entropy (Fixed.v) | math.Log2 (a function parameter); fused multiply-add on other machines than amd64; progress bar |
| cmd/recon.go | whole command, with its options, from the device to the metadata file, read and write faults | progress bar, signals |
| cmd/recover.go | whole command: directories, files, links, warnings, exit, lines of --verbose (RecoverSays.v) | concurrent changes of the destination by other processes; wall clock |
| cmd/ls.go, cmd/dump_index.go | arguments, order, text of each row, alignment by text/tabwriter (Tabwriter.v), the text of a time (Time.v) | where the local time zone comes from (a function from times to offsets) |
| internal/rescuefs | root and metadata node (MountTop.v), node/file methods (Lookup, OpenDir, GetAttr, xattrs, Readlink, Read) | the FUSE kernel protocol, nodefs' own tables, entry time-outs |
| cmd/{mount,root}.go, Run functions of all commands (Cli.v) | argument counts, required options, what is opened in which order, exit status, mount with and without a device | cobra flag parsing, messages other than those of C105 and recover's warnings, signal handling; metadata files, devices and recover's file system are taken to be disjoint |
| cmd/completion.go, cmd/btrfscue/** | — | shell completion, pprof, process start-up |

* A **crash** is the process being killed between two system calls or transactions: what was
  written stays written, and bbolt's commit is atomic. Loss of the operating system's cache
  (power failure) is not modelled.
* **Concurrency**: `Conc.v` interleaves the requests at the granularity of the reads and writes
  of the shared caches; the Go memory model's weaker behaviours of racy programs are not modelled.
* **Faults**: reads and writes may fail at any call, chosen by an oracle the theorems quantify over.

## Plan per property

(what is modelled / how proved; R = the code does not satisfy the full statement: a witness
refutes it and the exact positive part is proved with the suffix `_partial`)

* C01, C02, C12: `newIndexKey` as 33 bytes; key read as one big-endian number; order
  isomorphism by `be_decode` arithmetic.
* C03, C04: `KeyCompare`, `KF`, `KL` as functions; case analysis + lia. R: exact -1/+1.
* C05-C10: slice model, packed-struct serializer as specification, one theorem per
  structure quantified over all fields. R for C07 (capacity over-read), C09 (16-bit wrap), C10 (compressed inline).
* C11, C25: metadata record codec; decision table of Open.
* C13-C15: leaf writer as specification; induction over items. R for C14.
* C16-C18: bucket = sorted list, `put` lemmas, `find` characterised by Seek/Prev. R for C17 (generation), C18.
* C19-C23: exact characterisation of the iterator (takeWhile on the start generation), then
  positive corollaries. R for C19, C20, C21, C22.
* C24, C26, C27: state machine invariant over operation lists with crash points. R for C27.
* C28, C62: binary search with explicit loop; mapping theorem. R for addresses without chunk.
* C29, C58: interleaving semantics of the lazy caches; R with a schedule.
* C30: path walk specification as relation. R for hash collisions.
* C31: table driven = bit serial by linearity, finite sweep over 256 bytes lifted to all strings.
* C32-C36: direct. R for C34 (capacity), C35 (EOF with full block), C36 (overflow).
* C37-C39: fold over blocks; R for C39.
* C40-C43: fold invariants; map iteration order as an arbitrary permutation; random stream as an oracle. R for C42, C43.
* C44: over `R` (exact arithmetic, stdlib axioms for reals); the rounding of float64 and of math.Log2 is not modelled here, so the theorem is about the formula the code evaluates; the rounding is in C103.
* C45-C53: file tree model with syscall log. R for C46, C47, C49, C51, C53. C46 holds when no directory has two items of one name (PropsRecoverApart: every step for entry n changes only what is at or below n, so no link is on the way to a later entry).
* C54-C57: node state machine. R for C57.
* C59-C61: direct; sort as any permutation sorted by Less. R for C61.
* C63: effects of the modelled commands are explicit in the model (log of mutating calls).
* C64: Readlink of the mounted tree against the inline data of the link.
* C65: argument parsing of ls (subvolume and path) as a function of strings. R: subvolume names.
* C66: dump-index text as a function of the stored entries. R: empty store, first heading, metadata row.
* C67: `SpecTree.v` describes a finite tree of directories, files, links and nested subvolumes and
  what its recovered copy is; mutual induction over the tree; loop over roots and orphans.
  `PropsDest.v`: the same when the destination and some of its ancestors are missing (MkdirAll).
* C68: recon with arbitrary read errors, short reads and write errors: what is stored is exactly the items of
  the blocks that were read, up to the last successful commit; the exit reports the failure. R: items of the last, uncommitted transaction.
* C69: recon followed by recover: the index built from the image answers the queries as the
  items of the image demand (C37, C17, C19, C22, C28 composed), then C67.
* C70: request sequences on a growing set of nodes (`SpecMount.v`); invariant: every node stands for the
  subtree at its path; a sequential reader gets the content. R: orphaned subvolumes are not shown.
* C71: recon followed by ls (`PropsLsDisk.v`): ls depends on the index only through answers that equal the table of the
  image (as for C69); path lookup by hash and by scan both end at the named entry; uniqueness of the sorted text.
* C72: identify as a whole (`PropsIdentifyAll.v`): C43 gives the samples, the reads become the blocks of the image at these
  positions, C40 and C41 give the rows.
* C73: PropsAgain. A file or link that is there and right is skipped (no clobber) or rewritten the same; so the tree theorem C67_whole_tree holds from any part of the tree whose files are right, and from the whole tree it says nothing changes. C51_rerun is the same for a run after an interrupted one.
* C74: PropsMountErr. Induction over the extent map: the read loop over a device that fails at will either ends with EIO or does what it does over a sound one. Found missing by a seeded bug (device errors swallowed by Read broke no theorem about correct data).
* C75: SpecDamage (what a damaged device is; what is on no bad position), TreeDamage, PropsDamage. C48 and C52 are first generalized to devices whose reads may fail (C48_from_damaged, C52_from_damaged: whatever fails, the function returns; if the file's own extents can be read the content is right); then the induction of C67 over the tree with "what is intact is right" instead of "everything is right", using C67_any_run's frame facts (an entry changes only its own subtree).
* C76: the shape of a tree (`dir_shape` in SpecTree) takes as parameter what a file or link has to show (`ask`): everything (`shown`, C67, C75) or only that its remaining items can be decoded (`listed`). TreeLegible shows that recoverFile and recoverSymlink return on any such file or link; TreeDamage's induction is then the same for C75 and C76. Example and refutation in PropsLossEx.
* C77: SpecLoss (an index from which items are missing: `misses`; what is untouched; what is orphaned). The tree of what is left is a part of the original tree (LossProofs: `shape_part`); directories below two different tops would have two parents, which a volume that shows a tree excludes (`above_both`), so the subvolumes recover still has to restore by itself are the orphans. Then C76 on what is left.
* C78: the table of the items left on a damaged image misses items of the table of the sound image (`table_misses`); the index built by recon agrees with it (as for C69); then as C77. Example (PropsLossDiskEx): an image of which one leaf of the main tree is zeroed.
* C79: PropsRestart. Invariant over histories of disturbed runs: the file is the one opened plus some items of the image (from C68's analysis of a disturbed run: the blocks delivered are a prefix of those of the image); inserting all items again then gives the same sorted bucket.
* C80: PropsAlarm. For every function that may return an error: if it does, the steps logged since it looked at the path are steps for this path and one of them failed (`fw`, a relation on computations closed under bind); then an invariant over the log of the whole run (every warning in it has a cause).
* C06, sizes: PropsSizes. The exported structure lengths against the lengths of the packed structures of SpecLayout.
* C81: SpecMountLoss (what is left; what a node shows of it), PropsMountLoss. C70's session invariant with the sound volume's tree as reference: every known node is served from keys found through entries that are left; per request the answer over the incomplete index is compared with the complete one. C53 is first generalized to devices of which only the file's own extents need be readable (C53_readable_partial).
* C82: the same section of lemmas with the index recon wrote, which agrees with the table of the items left (as C78).
* C83: SpecMountAny (a volume as directory items and inode items; what a path leads to; what a node answers), PropsMountAny. Session invariant: every known node is served from the key its path leads to; per request the C53-C58 theorems for that key.
* C84: the same lemmas with the index recon wrote, which agrees with the table of the image's items for every key that directory items lead to (`reach_fine`).
* C85: SpecSurvive (what a whole item is, by byte offsets), PropsSurvive. No step panics on whole items (np_*), by structure of recoverDir/recoverFile; with C50's termination measure the command ends. Forward: if Next moves to greater keys, all queries of the index end (used instead of assuming it). Conversely every directory listed by a run that returned had items with readable names (clean_*), and C50 says which directories are listed.
* C86: SpecSurvive, PropsMountSurvive. Session invariant: every known node is one that directory items lead to, and its cached map holds whole items; then each method of rescueNode returns. Reads by induction over the extent map with 64 bit arithmetic.
* C87: SpecAgree (`same_as`: a node of the mount against a file tree at a path). From C69 and C70 for the same index; names occur once by the shape of the directory.
* C88: ReconCmd (the options record), PropsAppend. From C68's characterisation for any device and any failures; `blocks_exist`: every device delivers some list of blocks. R: without --append old items stay.
* C89: Cli.v (from a parsed command line to what the process does: argument counts, required options, order of opens, exit status), SpecCli (unusable, touches). Case analysis over the commands; the metadata record by C25/C26.
* C90: PropsWork. recon_cmd: recon from the command line gives C37's index; open_cmd: the later command opens it; then C69, C70, C71.
* C91: PropsWork2. C72's report, C32's round trip of the printed id, C37's index.
* C92: PropsWork2. The index as a sorted bucket is the list of tuples; dump of a bucket is `listing` of its tuples.
- C93 (a written volume comes back): SpecVolume.v describes the items of a tree of files and when an image carries them, without anything of the program; VolumeProofs.v shows that the table of such an image (SpecDisk) shows the tree (SpecTree, SpecMount) and VolumeLs.v its entries; PropsVolume.v composes this with C90, from the command line. SpecMkfs.v is a writer for every tree; MkfsProofs.v, MkfsImage.v and PropsMkfs.v show that its images carry the tree, so that recon and recover give back what was written.
* **C94** (top of the mount). `MountTop.v` models the root node and the metadata node (nodefs.go:26-83) together with what go-fuse 2.1.0 does around them: known children are asked for their attributes, the default OpenDir lists children that answer, the read-only wrapper refuses writes, the default node refuses changes. Induction over the list of requests; the composition with recon uses C93.
- C95: SpecGen.v says which versions of which items are seen (`seen`), PropsGen.v proves that the index recon writes answers so for all images and repeats C69 and C84 with it, without the condition on generations; PropsGenEx.v has the refutations. Status: partial, the code violates the full claim.
- C96: PropsXattr.v, every query of pkg/btrfs/index/index_store.go against the items seen (C95); C56's attribute theorems composed with recon. PropsXattrEx.v has the refutation by a real CRC32C collision.
- C97: PropsXattrEx.v, refutation by the same collision in a directory; the exact theorem is C95_recover.
- C06_csum_item, C34_new: PropsLayout2.v. C89_destination, C89_status: PropsCliDest.v (added after a seeded bug in the exit status survived).
- C98: Tabwriter.v models text/tabwriter (cells, column blocks, escapes, flushes); SpecTab.v says what a table is without it; TabProofs.v proves by induction over lines and columns that the writer produces it; PropsPrintLs.v composes with C65 and C90. PropsPrintEx.v has examples and refutations.
- C99: PropsReport.v, the same writer with tabs; reading back by cutting at newlines and tabs, composed with C91.
- C100: PropsGenLs.v, C71 with the items seen (C95) for listings and the newest versions for paths. PropsGenLsEx.v has the example and refutation.
- C101: Time.v models time.Time.Format with the layout of ls.go (absDate, absClock of package time); SpecTime.v specifies the calendar by `tomorrow`; TimeCycle.v sweeps one cycle, PropsTime.v lifts it to all times, proves the text, and closes the parameter of C98.
- C102: Fraction.v has the float64 product and its conversion; PropsFraction.v proves it with Flocq's rounding lemmas (monotone, whole numbers exact) and composes with C72. PropsFractionEx.v has examples and the refutation. Axioms: those of Coq.Reals and Flocq's use of `classic`, as for C42.
* C103: `%.6f` as the nearest millionth, half to even (Fixed.v); the float64 sum of the entropy (Identify.v) against H of C44 by an error analysis with Flocq: exact quotients by 16, half an ulp per product and sum, induction over any order of the counts. Composition with C99 for the lines of the report, and with C72's order (PropsFixedSorted.v): printed entropies of lines with equal counts descend.
C104: PropsLinkClobber.v. Every run of recoverSymlink is split into a removal step and a link-creating step over arbitrary faults; the last clause of the property is refuted (the entry is removed before the target is known).
C105: Stdout.v has what identify and Physical print besides their result. PropsStdout.v: the lines of the output, composed with C72 (warning) and the range theorem behind C28 (stripes); the printing loop is shown to compute the same as Store.v.
* C106: `RecoverSays.v` repeats recover.go with the lines of Verbosef as state; erasing them gives Recover.v; induction over the run relates lines and log; parsing of the text by digits from either end. R: " -> " in names, refused names.

(** cmd/recon.go: scanning an image into the metadata file. *)
From Verif Require Export Go Layout KeyFmt Bolt Store Session IoUtil.

(** how a command ends: normally; with os.Exit(1) (cliutil.Fatalf, deferred calls
    do not run); with a run-time panic (deferred calls do run) *)
Inductive exit_status := XOk | XFatal | XPanic.
(* the arguments of InsertItem, recon.go:108-109, evaluated left to right; owner
   and generation are read from the header inside InsertItem (index_store.go:222) *)
Definition leaf_insertion (l : slice) (i : Z) : Res insertion :=
  k <- Leaf_Key l i ;; it <- Leaf_Item l i ;; d <- Leaf_Data l i ;;
  o <- Header_Owner l ;; g <- Header_Generation l ;; Ok (mkIns k o g (sbytes it) (sbytes d)).
(* recon.go:107-110; [okf i]: does a Commit made by the i-th insert succeed? *)
Fixpoint scan_items (okf : Z -> bool) (l : slice) (n : nat) (i : Z) (ix : index) : index * exit_status :=
  match n with
  | O => (ix, XOk)
  | S n =>
      match leaf_insertion l i with
      | Ok ins =>
          match InsertItem (okf i) ins ix with
          | Ok (ix', ENone) => scan_items okf l n (i + 1) ix'
          | Ok (ix', EErr) => (ix', XFatal)
          | _ => (ix, XPanic)
          end
      | _ => (ix, XPanic)
      end
  end.
(* recon.go:91-103: is this a non-empty leaf of the filesystem?  (short circuit) *)
Definition wanted (id : list byte) (l : slice) : Res bool :=
  f <- Header_FSID l ;;
  if negb (bytes_eqb f id) then Ok false
  else n <- Header_NrItems l ;;
       if n =? 0 then Ok false else Header_IsLeaf l.
(* recon.go:89-110, one block *)
Definition scan_block (okf : Z -> bool) (id : list byte) (block : list byte) (ix : index) : index * exit_status :=
  match (w <- wanted id (sl block) ;; if (w : bool) then n <- Leaf_Len (sl block) ;; Ok (Some n) else Ok None) with
  | Ok None => (ix, XOk)
  | Ok (Some n) => scan_items okf (sl block) (Z.to_nat n) 0 ix
  | _ => (ix, XPanic)
  end.
(* recon.go:82-111; [buf] is the buffer reused for all blocks.  Fuel: the caller
   passes the number of blocks. *)
Fixpoint scan_loop (fuel : nat) (okf : Z -> Z -> bool) (r : readerAt) (id : list byte) (bs devSize off : Z) (buf : list byte) (ix : index) :
  index * exit_status :=
  match fuel with
  | O => (ix, XOk)
  | S fuel =>
      if off <? devSize then
        let '(buf, err) := ReadBlockAt r buf off in
        match err with
        | Some EOF => (ix, XOk)
        | Some EOther => (ix, XFatal)
        | None =>
            let '(ix, st) := scan_block (okf off) id buf ix in
            match st with
            | XOk => scan_loop fuel okf r id bs devSize (u64 (off + bs)) buf ix
            | _ => (ix, st)
            end
        end
      else (ix, XOk)
  end.
(** the device: what Seek to the end reports, and ReadAt *)
Record device := mkDev { dev_seek : Z * bool; dev_read : readerAt }.
(* recon.go:49-115.  [okopen]: does the commit of the metadata record succeed when
   opening; [okend]: does the final Commit succeed.  Opening the image file is
   assumed to succeed; progress bar left out.  Result: the committed state of the
   metadata file and how the process ends. *)
Definition doScanFS (okopen okend : bool) (okf : Z -> Z -> bool) (dev : device) (bs : Z) (id : list byte) (d : disk) : disk * exit_status :=
  if bytes_eqb id (repeat x00 16) then (d, XFatal)
  else
    let '(size, ok) := CheckDeviceSize (dev_seek dev) bs in
    if negb ok then (d, XFatal)
    else if bs =? 0 then (d, XPanic) (* devSize % 0 *)
    else
      let devSize := size - size mod bs in
      match openIndex okopen (mkOptions false bs id max64 false) d with
      | Ok (d, None) => (d, XFatal)
      | Ok (d, Some ix) =>
          let '(ix, st) := scan_loop (Z.to_nat (devSize / bs + 1)) okf (dev_read dev) id bs devSize (u64 (SuperInfoOffset + bs)) (repeat x00 (Z.to_nat bs)) ix in
          match st with
          | XFatal => (ix_disk ix, XFatal)
          | _ =>
              (* deferred: Commit, then Close (which commits again: nothing) *)
              let '(ix, e) := Commit okend ix in
              match e with
              | EErr => (ix_disk ix, XFatal)
              | ENone => match Close okend ix with Ok d => (d, st) | _ => (ix_disk ix, XPanic) end
              end
          end
      | _ => (d, XPanic)
      end.

(** cmd/recon.go: the options of the command. *)
From Verif Require Export Go Layout KeyFmt Bolt Store Session IoUtil Recon.

(* recon.go:23-26 *)
Record scanFSOptions := mkScanOptions { so_id : list byte; so_append : bool }.
(* recon.go:49-115 as called from 38: options.append is set by the flag (44) and read nowhere *)
Definition doScanFS_opts (okopen okend : bool) (okf : Z -> Z -> bool) (dev : device) (bs : Z) (o : scanFSOptions) (d : disk) : disk * exit_status :=
  doScanFS okopen okend okf dev bs (so_id o) d.

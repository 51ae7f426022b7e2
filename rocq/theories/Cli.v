(** cmd/root.go, cmd/mount.go and the Run functions of the other commands: from a parsed command
    line to what the process does.  Parsing of flags by cobra is not modelled; the number of
    arguments each command accepts, the options it insists on, what it opens and in which order
    are.  Messages, progress bar, --verbose and --machine (see Tabwriter.v) are left out, and so are the commands
    completion and help. *)
From Verif Require Import Go Layout KeyFmt Bolt Store Session IoUtil Uuid Identify Recon ReconCmd Path Fs Recover Rescue Ls.

(** a file given as --metadata: bbolt.Open refuses one that is not a database (index_store.go:113) *)
Inductive db_file := NoFile | NotDatabase | Database (d : disk).
(** what the command finds on the machine it runs on: by path, the metadata files and the devices or
    images it can open for reading (os.Open); and the file system recover writes to.
    Simplification: the three do not overlap, and nobody else changes them meanwhile. *)
Record host := mkHost { h_db : list byte -> db_file; h_dev : list byte -> option device; h_world : world }.
(* index_store.go:107-116: the file after a write transaction *)
Definition set_db (h : host) (p : list byte) (f : db_file) : host :=
  mkHost (fun q => if bytes_eqb q p then f else h_db h q) (h_dev h) (h_world h).
Definition set_world (h : host) (w : world) : host := mkHost (h_db h) (h_dev h) w.

(* app/btrfscue.go:6-12, root.go:38-49 *)
Record globals := mkGlobals { g_blockSize : Z; g_metadata : list byte }.
(** the sub-commands with their own options *)
Inductive command :=
| CIdentify (wish minBlocks maxBlocks minOccurrence : Z) (* identify.go:25-33; [wish]: see IdentifyFS *)
| CRecon (id : option (list byte)) (append : bool)       (* recon.go:43-44; the text after --id *)
| CLs (recursive inode : bool)                           (* ls.go:139-142 *)
| CDumpIndex
| CRecover (clobber : bool)                              (* recover.go:41-43 *)
| CMount.
(** Args of each command: identify.go:18, recon.go:33, dump_index.go:20, recover.go:32, mount.go:27;
    ls.go:127 has none and takes any number *)
Definition args_ok (c : command) (args : list (list byte)) : bool :=
  match c with
  | CIdentify _ _ _ _ | CRecon _ _ => zlen args =? 1
  | CLs _ _ => true
  | CDumpIndex => zlen args =? 0
  | CRecover _ => zlen args =? 2
  | CMount => (1 <=? zlen args) && (zlen args <=? 2)
  end.

(** everything the outcome depends on besides host and command line: fuel, the commits and the
    mount system call that may fail, faults and crashes of recover, the random source and map order
    of identify, sorting and printing of times in ls *)
Record oracle := mkOracle {
  o_fuel : nat; o_cfuel : nat; o_rfuel : nat;
  o_okopen : bool; o_okend : bool; o_okf : Z -> Z -> bool;
  o_env : env; o_okmount : bool;
  o_rnd : nat -> Z; o_ent : list byte -> SpecFloat.spec_float; o_order : hist -> hist;
  o_sort : list slice -> Res (list slice); o_time : Z * Z -> list byte }.

(** how the process ends.  os.Exit(1) after a message; a panic (exit status 2); it never ends (not
    within the fuel); or it goes on serving the mounted file system, from bucket, generation and device *)
Inductive ending := Exit0 | Exit1 | Panics | Killed | NeverEnds | Serving (b : bucket) (gen : Z) (d : device_arg) (mountPoint : list byte).
Inductive output := ONone | OReport (rows : list FSEntry) | OListing (files : list byte) (missing : list (list byte)) (dirs : list byte) | ODump (text : list byte).
Record result := mkResult { r_host : host; r_out : output; r_end : ending }.
(* cliutil.go:24-27, 42-46 *)
Definition fatal (h : host) : result := mkResult h ONone Exit1.
(** a query result, with what to do with it: a panic ends the process (any of the Run functions, recover.go:56-67) *)
Definition on_res {A} (h : host) (r : Res A) (k : A -> result) : result :=
  match r with Ok a => k a | Panic => mkResult h ONone Panics | Timeout => mkResult h ONone NeverEnds end.

(* index_store.go:99-124: os.Stat, bbolt.Open read-only, the checks and the read transaction *)
Definition open_metadata (h : host) (p : list byte) (k : bucket -> Z -> result) : result :=
  match h_db h p with
  | NoFile | NotDatabase => fatal h
  | Database d =>
      on_res h (OpenReadOnly d) (fun r =>
        match snd r with
        | None => fatal h
        | Some ix => match ix_tx ix with Some t => k (tx_bucket t) (ix_Generation ix) | None => mkResult h ONone Panics end
        end)
  end.

(* identify.go (cmd):19-22, internal/identify/identify.go:71-135 *)
Definition run_identify (o : oracle) (g : globals) (h : host) (wish minb maxb mino : Z) (args : list (list byte)) : result :=
  match args with
  | [image] =>
      match h_dev h image with
      | None => fatal h
      | Some dev =>
          on_res h (IdentifyFS (o_fuel o) (o_rnd o) (o_ent o) (dev_seek dev) (dev_read dev) (g_blockSize g) wish minb maxb mino (o_order o)) (fun r =>
            match r with None => fatal h | Some rows => mkResult h (OReport rows) Exit0 end)
      end
  | _ => fatal h
  end.
(* recon.go:34-39, 43, 49-56; the flag --id is parsed into the zero UUID by uuid.Set, an error ends
   the command; index_store.go:112-116: bbolt.Open creates the file *)
Definition run_recon (o : oracle) (g : globals) (h : host) (idtext : option (list byte)) (append : bool) (args : list (list byte)) : result :=
  let '(id, parsed) := match idtext with None => (repeat x00 16, true) | Some t => New t end in
  if negb parsed then fatal h
  else match args with
  | [image] =>
      if zlen (g_metadata g) =? 0 then fatal h
      else if IsZero id then fatal h
      else match h_dev h image with
      | None => fatal h
      | Some dev =>
          let run d := let '(d', st) := doScanFS_opts (o_okopen o) (o_okend o) (o_okf o) dev (g_blockSize g) (mkScanOptions id append) d in
                       let h' := set_db h (g_metadata g) (Database d') in
                       match st with XOk => mkResult h' ONone Exit0 | XFatal => mkResult h' ONone Exit1 | XPanic => mkResult h' ONone Panics end in
          (* the size of the device is checked before the metadata file is opened *)
          if negb (snd (CheckDeviceSize (dev_seek dev) (g_blockSize g))) then fatal h
          else if g_blockSize g =? 0 then mkResult h ONone Panics
          else match h_db h (g_metadata g) with
          | NotDatabase => fatal h
          | NoFile => run None
          | Database d => run d
          end
      end
  | _ => fatal h
  end.
(* ls.go:128-133, 147-186 *)
Definition run_ls (o : oracle) (g : globals) (h : host) (recursive inode : bool) (args : list (list byte)) : result :=
  if zlen (g_metadata g) =? 0 then fatal h
  else open_metadata h (g_metadata g) (fun b gen =>
    on_res h (doListFiles (o_time o) (o_sort o) (FindDirItemForPath (o_rfuel o) b gen) (o_fuel o) (ix_queries (o_rfuel o) b gen) recursive inode args) (fun r =>
      let '(files, missing, dirs) := r in mkResult h (OListing files missing dirs) Exit0)).
(* dump_index.go:21-26, 34-49 *)
Definition run_dump (o : oracle) (g : globals) (h : host) : result :=
  if zlen (g_metadata g) =? 0 then fatal h
  else open_metadata h (g_metadata g) (fun b gen =>
    on_res h (doDumpIndex (o_fuel o) b gen) (fun text => mkResult h (ODump text) Exit0)).
(* recover.go:33-38, 48-85 *)
Definition run_recover (o : oracle) (g : globals) (h : host) (clobber : bool) (args : list (list byte)) : result :=
  match args with
  | [image; dest] =>
      if zlen (g_metadata g) =? 0 then fatal h
      else open_metadata h (g_metadata g) (fun b gen =>
        match h_dev h image with
        | None => fatal h
        | Some dev =>
            let '(w, r) := doRecoverFiles (o_fuel o) (o_cfuel o) (o_env o) (dev_read dev) (ix_queries (o_rfuel o) b gen) clobber dest (h_world h) in
            mkResult (set_world h w) ONone
              match r with Ret (true, _) => Exit0 | Ret (false, _) => Exit1 | OPanic => Panics | OCrash => Killed | OTimeout => NeverEnds end
        end)
  | _ => fatal h
  end.
(* mount.go:28-33, 39-63, rescuefs.go:29-39.  dev is a *os.File: without a device argument New gets a nil one *)
Definition run_mount (o : oracle) (g : globals) (h : host) (args : list (list byte)) : result :=
  if zlen (g_metadata g) =? 0 then fatal h
  else open_metadata h (g_metadata g) (fun b gen =>
    let serve d := if o_okmount o then mkResult h ONone (Serving b gen d (last args [])) else fatal h in
    match args with
    | [image; _] => match h_dev h image with None => fatal h | Some dev => serve (Reader (dev_read dev)) end
    | _ => serve NilFile
    end).
(* root.go:53-57: cobra checks the arguments, then Run; an error is exit status 1 *)
Definition btrfscue (o : oracle) (h : host) (g : globals) (c : command) (args : list (list byte)) : result :=
  if negb (args_ok c args) then fatal h
  else match c with
  | CIdentify wish minb maxb mino => run_identify o g h wish minb maxb mino args
  | CRecon id append => run_recon o g h id append args
  | CLs recursive inode => run_ls o g h recursive inode args
  | CDumpIndex => run_dump o g h
  | CRecover clobber => run_recover o g h clobber args
  | CMount => run_mount o g h args
  end.

(** Specification: invocations of btrfscue that cannot work, and what each command may touch (C89). *)
From Verif Require Import Go Layout KeyFmt Bolt Store Session IoUtil Recon Fs Cli SpecStore StoreProofs PropsSession PropsUuid.

(** how many arguments a command takes *)
Definition takes (c : command) (n : Z) : Prop :=
  match c with
  | CIdentify _ _ _ _ | CRecon _ _ => n = 1
  | CLs _ _ => True
  | CDumpIndex => n = 0
  | CRecover _ => n = 2
  | CMount => n = 1 \/ n = 2
  end.
(** all commands but identify need --metadata; those but recon only read it *)
Definition needs_metadata (c : command) : Prop := match c with CIdentify _ _ _ _ => False | _ => True end.
Definition reads_index (c : command) : Prop := match c with CIdentify _ _ _ _ | CRecon _ _ => False | _ => True end.
(** the argument that names the damaged device or image, if there is one *)
Definition image_arg (c : command) (args : list (list byte)) : option (list byte) :=
  match c, args with
  | CIdentify _ _ _ _, [i] | CRecon _ _, [i] | CRecover _, [i; _] | CMount, [i; _] => Some i
  | _, _ => None
  end.
(** identify and recon scan the device and check its size *)
Definition scans (c : command) : Prop := match c with CIdentify _ _ _ _ | CRecon _ _ => True | _ => False end.

(** the record a metadata file carries about itself *)
Definition has_record (b : bucket) (ver bs : Z) (fsid : list byte) : Prop :=
  exists gen, get b metadataKey = Some (md_record ver bs fsid gen) /\ is_u64 ver /\ is_u32 bs /\ length fsid = 16%nat.
(** a metadata file that cannot be read as an index of this version *)
Definition no_index (f : db_file) : Prop :=
  match f with
  | NoFile | NotDatabase | Database None => True
  | Database (Some b) => get b metadataKey = None \/ exists ver bs fsid, has_record b ver bs fsid /\ ver <> 20190809
  end.
(** ... that recon cannot add to *)
Definition other_index (f : db_file) (bs : Z) (id : list byte) : Prop :=
  match f with
  | NotDatabase => True
  | NoFile | Database None => False
  | Database (Some b) => exists ver bs0 fsid, has_record b ver bs0 fsid /\ (ver <> 20190809 \/ bs0 <> bs mod 2^32 \/ fsid <> id)
  end.
(** its record, if it has one, is not cut short *)
Definition legible_db (f : db_file) : Prop :=
  forall b, f = Database (Some b) -> get b metadataKey = None \/ exists ver bs fsid, has_record b ver bs fsid.

(** the command line cannot work on this machine *)
Inductive unusable (h : host) (g : globals) (c : command) (args : list (list byte)) : Prop :=
| wrong_arguments : ~ takes c (zlen args) -> unusable h g c args
| no_metadata_option : needs_metadata c -> g_metadata g = [] -> unusable h g c args
| no_id : forall id a, c = CRecon id a -> ~ (exists t u, id = Some t /\ spells t u /\ length u = 16%nat /\ u <> repeat x00 16) -> unusable h g c args
| no_image : forall i, image_arg c args = Some i -> h_dev h i = None -> unusable h g c args
| size_unknown : forall i dev, scans c -> image_arg c args = Some i -> h_dev h i = Some dev -> snd (dev_seek dev) = false -> unusable h g c args
| too_small : forall i dev, scans c -> image_arg c args = Some i -> h_dev h i = Some dev -> 0 <= fst (dev_seek dev) < 2^63 -> 0 <= g_blockSize g <= 2^48 ->
    fst (dev_seek dev) < 64 * 2^20 + 100 * g_blockSize g -> unusable h g c args
| no_metadata_file : reads_index c -> no_index (h_db h (g_metadata g)) -> unusable h g c args
| other_metadata : forall t u a, c = CRecon (Some t) a -> spells t u -> length u = 16%nat -> other_index (h_db h (g_metadata g)) (g_blockSize g) u -> unusable h g c args.

(** the same machine *)
Definition same_host (h h' : host) : Prop := (forall p, h_db h p = h_db h' p) /\ (forall p, h_dev h p = h_dev h' p) /\ h_world h = h_world h'.
(** what a command may change: recon its metadata file, recover files, the others nothing *)
Definition touches (g : globals) (c : command) (h h' : host) : Prop :=
  match c with
  | CRecon _ _ => (forall p, p <> g_metadata g -> h_db h' p = h_db h p) /\ (forall p, h_dev h' p = h_dev h p) /\ h_world h' = h_world h
  | CRecover _ => (forall p, h_db h' p = h_db h p) /\ (forall p, h_dev h' p = h_dev h p)
  | _ => h' = h
  end.
(** ** workflows (C90) *)
(** commits of the metadata file and the mount system call succeed *)
Definition no_trouble (o : oracle) : Prop := o_okopen o = true /\ o_okend o = true /\ o_okf o = (fun _ _ => true) /\ o_okmount o = true.
(** the same machine, but that metadata file [p] now holds the index [b] *)
Definition gained (h h' : host) (p : list byte) (b : bucket) : Prop :=
  h_db h' p = Database (Some b) /\ (forall q, q <> p -> h_db h' q = h_db h q) /\ (forall q, h_dev h' q = h_dev h q) /\ h_world h' = h_world h.
(** the same machine, but for the files recover wrote *)
Definition wrote (h h' : host) (w : world) : Prop := (forall q, h_db h' q = h_db h q) /\ (forall q, h_dev h' q = h_dev h q) /\ h_world h' = w.
Definition with_fuel (o : oracle) (n : nat) : oracle :=
  mkOracle n (o_cfuel o) (o_rfuel o) (o_okopen o) (o_okend o) (o_okf o) (o_env o) (o_okmount o) (o_rnd o) (o_ent o) (o_order o) (o_sort o) (o_time o).

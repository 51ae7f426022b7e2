(** Specification of the mounted view of a tree (C70). *)
From Verif Require Import Go Layout SpecLayout KeyFmt IoUtil Path Fs Recover SpecFs SpecContent SpecTree Rescue PropsRescueRead PropsRescueNode.
From Coq Require Import List Permutation.

(** what a path leads to *)
Fixpoint tree_sub (t : tree) (r : cpath) : option tree :=
  match r with
  | [] => Some t
  | c :: r => match t with TDir kids => match pick kids c with Some t => tree_sub t r | None => None end | _ => None end
  end.
Definition is_tdir (t : tree) : bool := match t with TDir _ => true | _ => false end.

(** ** sessions *)
(** The nodes the kernel knows, each with the path below the directory "rescue" of the mount point by which it was
    looked up and whether it is a directory.  The kernel sends requests for nodes it knows, in any
    order, any number of times; it looks up and lists directories only, learns of a new node by a
    successful lookup and may forget nodes. *)
Definition known := list (cpath * bool * node_state).
Inductive session (q : queries) : known -> Prop :=
| ses_mount : session q [([], true, mount_node)]
| ses_found T1 p n T2 name n' c isd a : session q (T1 ++ (p, true, n) :: T2) -> Lookup q n name = Ok (n', Some (c, isd), a, OK) ->
    session q (T1 ++ (p, true, n') :: T2 ++ [(p ++ [name], isd, c)])
| ses_lookup T1 p n T2 name n' c a st : session q (T1 ++ (p, true, n) :: T2) -> Lookup q n name = Ok (n', c, a, st) -> st <> OK ->
    session q (T1 ++ (p, true, n') :: T2)
| ses_list T1 p n T2 ord n' es : session q (T1 ++ (p, true, n) :: T2) -> OpenDir q ord n = Ok (n', es) -> session q (T1 ++ (p, true, n') :: T2)
| ses_attr T1 p isd n T2 n' a st : session q (T1 ++ (p, isd, n) :: T2) -> GetAttr q n = Ok (n', a, st) -> session q (T1 ++ (p, isd, n') :: T2)
| ses_forget T1 x T2 : session q (T1 ++ x :: T2) -> session q (T1 ++ T2).

(** ** volumes the mount command can show (C53, C54 and C64 say what goes wrong otherwise) *)
(** the extents of a file of the given size: one inline extent, or extents outside of the metadata
    that follow each other without gaps *)
Definition gapless (xs : list extent) (size : Z) : Prop :=
  (exists d, xs = [Inline 0 d] /\ size <= zlen d) \/
  (xs <> [] /\ Forall (fun x => ~ is_inline x) xs /\ exists fin, chain 0 xs fin /\ size <= fin).
Definition child_key (o : Z) (loc : Key) : Z * Z := if KType loc =? RootItemKey then (ObjectID loc, FirstFreeObjectID) else (o, ObjectID loc).
(** the entry is a directory, subvolume, file or link and has an inode item; links are inline *)
Definition mountable_item (q : queries) (o : Z) (di : slice) : Prop :=
  exists t loc x, DirItem_Type di = Ok t /\ DirItem_Location di = Ok loc /\ has_inode q (fst (child_key o loc)) (snd (child_key o loc)) x /\
    (t = FtDir \/
     (KType loc <> RootItemKey /\ t = FtRegFile /\ exists xs, Forall2 (is_extent q) (st_items (q_extents q o (ObjectID loc))) xs /\ gapless xs (in_size x)) \/
     (KType loc <> RootItemKey /\ t = FtSymlink /\ exists e, q_extent0 q o (ObjectID loc) = Ok (Some e) /\ FileExtentItem_Type e = Ok 0)).
Definition mountable (q : queries) (ks : list (Z * Z)) : Prop := forall o d, In (o, d) ks ->
  (exists x, has_inode q o d x) /\ forall e, In e (st_items (q_dirItems q o d)) -> mountable_item q o (snd e).

(** ** what a node must show *)
(** read from an open file with a buffer, again and again from where the last read ended, until
    [size] bytes have arrived.  None: an error or no end within [fuel] reads *)
Fixpoint read_on (fuel : nat) (dev : device_arg) (f : file) (buf : list byte) (size : Z) (got : list byte) : option (list byte) :=
  if size <=? zlen got then Some (firstn (Z.to_nat size) got)
  else match fuel with
       | O => None
       | S fuel => match file_Read dev f buf (zlen got) with Ok (d, OK) => read_on fuel dev f buf size (got ++ d) | _ => None end
       end.
Definition list_mode (t : tree) : Z := if is_tdir t then S_IFDIR else S_IFREG.
(** the node answers as the tree [t] demands, whatever order maps are iterated in *)
Definition shows_node (q : queries) (dev : readerAt) (t : tree) (n : node_state) : Prop :=
  (exists n' x, GetAttr q n = Ok (n', Some (attr_of (n_inode n) x), OK) /\ has_inode q (n_owner n) (n_inode n) x /\
     match t with TFile c => in_size x = zlen c | _ => True end) /\
  match t with
  | TDir kids =>
      (forall ord, (forall m, Permutation (ord m) m) -> exists n' es, OpenDir q ord n = Ok (n', es) /\
         Permutation es (map (fun k => (fst k, list_mode (snd k))) kids)) /\
      (forall name, match pick kids name with
       | None => exists n', Lookup q n name = Ok (n', None, None, ENOENT)
       | Some t => exists n' c a, Lookup q n name = Ok (n', Some (c, is_tdir t), Some a, OK)
       end)
  | TFile c => exists f, Open q n = Ok (Some f, OK) /\ forall buf, buf <> [] -> zlen c + zlen buf < 2^63 -> exists fuel, read_on fuel (Reader dev) f buf (zlen c) [] = Some c
  | TLink l => Readlink q n = Ok (Some l, OK)
  end.

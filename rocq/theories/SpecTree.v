(** Specification of a whole recovered tree: what a correct recover leaves in the
    destination, independent of how it gets there. *)
From Verif Require Import Go Layout KeyFmt IoUtil Path Fs Recover SpecFs SpecContent.
From Coq Require Import List.

(** ** trees *)
Inductive tree := TFile (content : list byte) | TLink (target : list byte) | TDir (kids : list (list byte * tree)).
Definition entries := list (list byte * tree).
Fixpoint pick (kids : entries) (n : list byte) : option tree :=
  match kids with
  | [] => None
  | (m, t) :: kids => if list_eq_dec Byte.byte_eq_dec m n then Some t else pick kids n
  end.
Definition top_node (t : tree) : node := match t with TFile c => NFile c | TLink l => NLink l | TDir _ => NDir end.
(** what a path leads to in a tree *)
Fixpoint tree_at (t : tree) (r : cpath) : option node :=
  match r with
  | [] => Some (top_node t)
  | c :: r =>
      match t with
      | TDir kids => match pick kids c with Some t => tree_at t r | None => None end
      | _ => None
      end
  end.
(** ** the tree an index and a device describe *)
(** regular file [i] of tree [o] has content [c] *)
Definition file_shows (q : queries) (D : list byte) (o i : Z) (c : list byte) : Prop :=
  exists xs it, Forall2 (is_extent q) (st_items (q_extents q o i)) xs /\ Forall (usable D) xs /\ st_end (q_extents q o i) = Ok tt /\
    q_inode q o i = Ok (Some it) /\ InodeItem_Size it = Ok (zlen c) /\ zlen c < 2^63 /\
    (forall j, 0 <= j < zlen c -> byte_at c j = file_byte D xs j).
(** symbolic link [i] of tree [o] has target [t] *)
Definition link_shows (q : queries) (D : list byte) (o i : Z) (t : list byte) : Prop :=
  exists e, q_extent0 q o i = Ok (Some e) /\ is_target q D e t /\ path_arg t = true.
(** a name the operating system and recover accept *)
Definition name_ok (n : list byte) : Prop := plain n /\ ~ In backslash n /\ zlen n <= 255.
(** dir item [di] has this name, type and location *)
Definition says (di : slice) (n : list byte) (t : Z) (loc : Key) : Prop :=
  DirItem_Name di = Ok n /\ DirItem_Type di = Ok t /\ DirItem_Location di = Ok loc.
(** What is asked of the files and the links of a tree: a relation between tree and
    inode and the content.  In most places: that it is what index and device say. *)
Record ask := mkAsk { ask_file : Z -> Z -> list byte -> Prop; ask_link : Z -> Z -> list byte -> Prop }.
Definition shown (q : queries) (D : list byte) : ask := mkAsk (file_shows q D) (link_shows q D).
(** Directory [d] of tree [o] shows [kids]; [ks]: the directories met, one entry per
    visit (a tree if there are no duplicates).  Names in a directory are distinct.
    Devices, sockets and pipes are not part of what recover restores. *)
Inductive dir_shape (q : queries) (A : ask) : Z -> Z -> entries -> list (Z * Z) -> Prop :=
| shows_dir o d kids ks :
    st_end (q_dirItems q o d) = Ok tt -> list_shape q A o (st_items (q_dirItems q o d)) kids ks ->
    dir_shape q A o d kids ((o, d) :: ks)
with list_shape (q : queries) (A : ask) : Z -> list (list byte * slice) -> entries -> list (Z * Z) -> Prop :=
| shows_nil o : list_shape q A o [] [] []
| shows_file o k di l n loc c kids ks :
    says di n FtRegFile loc -> KType loc <> RootItemKey -> ask_file A o (ObjectID loc) c ->
    name_ok n -> ~ In n (map fst kids) -> list_shape q A o l kids ks ->
    list_shape q A o ((k, di) :: l) ((n, TFile c) :: kids) ks
| shows_link o k di l n loc t kids ks :
    says di n FtSymlink loc -> KType loc <> RootItemKey -> ask_link A o (ObjectID loc) t ->
    name_ok n -> ~ In n (map fst kids) -> list_shape q A o l kids ks ->
    list_shape q A o ((k, di) :: l) ((n, TLink t) :: kids) ks
| shows_sub o k di l n o' d' sub kids ks1 ks2 :
    DirItem_Name di = Ok n -> names_dir o di (o', d') -> dir_shape q A o' d' sub ks1 ->
    name_ok n -> ~ In n (map fst kids) -> list_shape q A o l kids ks2 ->
    list_shape q A o ((k, di) :: l) ((n, TDir sub) :: kids) (ks1 ++ ks2)
| shows_other o k di l n t loc kids ks :
    says di n t loc -> KType loc <> RootItemKey -> t <> FtRegFile -> t <> FtSymlink -> t <> FtDir ->
    list_shape q A o l kids ks ->
    list_shape q A o ((k, di) :: l) kids ks.
(** the subvolumes that no directory leads to appear as subvol_N at the top;
    [vis]: the directories met before *)
Inductive subvols_shape (q : queries) (A : ask) : list (list byte * slice) -> list (Z * Z) -> entries -> Prop :=
| subs_nil vis : subvols_shape q A [] vis []
| subs_seen k d l vis kids :
    In (ObjectID (ik_Key k), FirstFreeObjectID) vis -> subvols_shape q A l vis kids -> subvols_shape q A ((k, d) :: l) vis kids
| subs_new k d l vis o n sub ks kids :
    o = ObjectID (ik_Key k) -> n = subvol_prefix ++ dec o -> ~ In (o, FirstFreeObjectID) vis ->
    dir_shape q A o FirstFreeObjectID sub ks -> (forall x, In x ks -> ~ In x vis) -> NoDup ks -> ~ In n (map fst kids) ->
    subvols_shape q A l (ks ++ vis) kids -> subvols_shape q A ((k, d) :: l) vis ((n, TDir sub) :: kids).
(** everything recover restores *)
Definition volume_shape (q : queries) (A : ask) (kids : entries) : Prop :=
  exists main ks extra, dir_shape q A FSTreeObjectID FirstFreeObjectID main ks /\ NoDup ks /\
    subvols_shape q A (st_items (q_subvolumes q)) ks extra /\ st_end (q_subvolumes q) = Ok tt /\
    kids = main ++ extra /\ (forall n, In n (map fst main) -> ~ In n (map fst extra)).

(** [volume_shows q D kids]: index [q] and device [D] describe the tree [kids] *)
Notation dir_shows q D := (dir_shape q (shown q D)).
Notation list_shows q D := (list_shape q (shown q D)).
Notation subvols_show q D := (subvols_shape q (shown q D)).
Notation volume_shows q D := (volume_shape q (shown q D)).

(** ** file trees *)
(** the file tree has exactly [t] at [P] *)
Definition holds_tree (F : fs) (P : cpath) (t : tree) : Prop := forall r, look F (P ++ r) = tree_at t r.
(** what there is at [P] has the same names and kinds as [t]: parts may be missing,
    files and links may have any content *)
Definition part_of_tree (F : fs) (P : cpath) (t : tree) : Prop :=
  forall r nd, look F (P ++ r) = Some nd -> exists nd', tree_at t r = Some nd' /\ kind_of nd = kind_of nd'.
(** may recover overwrite what is there, or is what is there right already? *)
Definition replaceable (clobber : bool) (F : fs) (P : cpath) (t : tree) : Prop :=
  clobber = true \/ forall r nd, look F (P ++ r) = Some nd -> tree_at t r = Some nd.
(** [p] is [P] or below *)
Definition at_or_below (P p : cpath) : Prop := exists r, p = P ++ r.
(** the destination: an existing directory, spelled without ".." and without going
    through symbolic links; [D0] is the directory *)
Definition plain_dest (E : env) (F : fs) (dest : list byte) (D0 : cpath) : Prop :=
  (forall p c, look F (p ++ [c]) <> None -> look F p = Some NDir) /\ path_arg dest = true /\ ~ In [dot; dot] (comps dest) /\
  D0 = (if is_abs dest then [] else e_cwd E) ++ comps dest /\ look F D0 = Some NDir /\ Forall (fun c => zlen c <= 255) (comps dest).
(** every path of the tree below the destination is short enough for the operating system *)
Definition paths_short (dest : list byte) (kids : entries) : Prop := forall r, tree_at (TDir kids) r <> None -> path_arg (sub_path (Clean dest) r) = true.

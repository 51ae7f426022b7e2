(** Specification: what a mount shows when items are missing from the index and data is damaged (C81, C82). *)
From Verif Require Import Go Layout SpecLayout KeyFmt IoUtil Path Fs Recover SpecFs SpecContent SpecTree SpecDamage SpecLoss Rescue PropsRescueRead PropsRescueNode SpecMount.
From Coq Require Import List Permutation.

(** path [p] leads to this inode, and this is a directory or not, through directory entries that are left in the index, each with its inode item *)
Inductive found (q' : queries) : cpath -> Z * Z -> bool -> Prop :=
| found_top : found q' [] main_top true
| found_entry p o d k di name loc it isd : found q' p (o, d) true -> In (k, di) (st_items (q_dirItems q' o d)) -> DirItem_Name di = Ok name -> DirItem_Location di = Ok loc -> DirItem_IsDir di = Ok isd ->
    q_inode q' (fst (child_key o loc)) (snd (child_key o loc)) = Ok (Some it) -> found q' (p ++ [name]) (child_key o loc) isd.
(** of the entries [kids] of directory [d] of tree [o] those are left that index [q'] has *)
Definition left_of (q' : queries) (o d : Z) (kids kids' : entries) : Prop :=
  part_of kids' kids /\ Forall2 (fun e k => DirItem_Name (snd e) = Ok (fst k)) (st_items (q_dirItems q' o d)) kids'.
(** Node [n] answers as far as it can as the tree [t] demands.  [q]: the complete index; [q']: what is left of it; [qi]: the
    index as the program reads it; [D], [D']: the device before and after the damage, of which [bad] positions may be unreadable. *)
Definition shows_left (q q' qi : queries) (D D' : list byte) (bad : Z -> Prop) (dev : readerAt) (t : tree) (n : node_state) : Prop :=
  let o := n_owner n in let i := n_inode n in
  (* the attributes are those of the complete index, or there are none because the inode item is missing *)
  ((q_inode q' o i = Ok None /\ exists n', GetAttr qi n = Ok (n', None, ENOATTR)) \/
   (exists x n', has_inode q o i x /\ q_inode q' o i = q_inode q o i /\ GetAttr qi n = Ok (n', Some (attr_of i x), OK) /\ match t with TFile c => in_size x = zlen c | _ => True end)) /\
  match t with
  | TDir kids => exists kids', left_of q' o i kids kids' /\
      (* the listing is what is left of the entries *)
      (forall ord, (forall m, Permutation (ord m) m) -> exists n' es, OpenDir qi ord n = Ok (n', es) /\ Permutation es (map (fun k => (fst k, list_mode (snd k))) kids')) /\
      (* looking up a name that is left succeeds, except if the inode item of what it names is missing *)
      (forall name, match pick kids' name with
       | None => exists n', Lookup qi n name = Ok (n', None, None, ENOENT)
       | Some t => exists n' c a st, Lookup qi n name = Ok (n', Some (c, is_tdir t), a, st) /\
           ((st = OK /\ a <> None /\ q_inode q' (n_owner c) (n_inode c) <> Ok None) \/ (st = ENOATTR /\ a = None /\ q_inode q' (n_owner c) (n_inode c) = Ok None))
       end)
  | TFile c =>
      (* opening works, except if no extents are left; if nothing of the file is missing or spoilt, reading gives its content *)
      (exists f st, Open qi n = Ok (f, st) /\ (st = OK <-> st_items (q_extents q' o i) <> [])) /\
      (good_file (untouched q q' D D' bad) o i -> exists f, Open qi n = Ok (Some f, OK) /\
         forall buf, buf <> [] -> zlen c + zlen buf < 2^63 -> exists fuel, read_on fuel (Reader dev) f buf (zlen c) [] = Some c)
  | TLink l => (q_extent0 q' o i = Ok None /\ Readlink qi n = Ok (None, ENODATA)) \/ Readlink qi n = Ok (Some l, OK)
  end.

(** Specification of recover: names, paths below a directory. *)
From Verif Require Import Go Path Fs.
(** a name that denotes an entry of the directory it is looked up in *)
Definition plain (c : list byte) : Prop := c <> [] /\ c <> [dot] /\ c <> [dot; dot] /\ ~ In slash c.
(** base/c1/.../cn; "." and "/" are written without a doubled prefix *)
Definition sub_path (base : list byte) (cs : list (list byte)) : list byte :=
  match cs with
  | [] => base
  | _ => if bytes_eqb base [dot] then join_comps cs
         else if bytes_eqb base [slash] then slash :: join_comps cs
         else base ++ slash :: join_comps cs
  end.
(** the destination, or a path below it *)
Definition inside (dest p : list byte) : Prop := p = dest \/ exists cs, Forall plain cs /\ p = sub_path (Clean dest) cs.
(** a leading part: the path of an ancestor *)
Definition leading (p s : list byte) : Prop := exists r, s = p ++ slash :: r.
Definition mutates (k : opk) : bool := match k with OStat | OLstat => false | _ => true end.
(** ** the directory graph *)
From Verif Require Import Layout Recover.
(** dir item [di], found in a directory of tree [o], names directory [k']: a
    subvolume item leads to the top directory of that tree, a directory item to a
    directory of the same tree; names "." and ".." and names with separators do not count *)
Definition names_dir (o : Z) (di : slice) (k' : Z * Z) : Prop :=
  exists name t loc, DirItem_Name di = Ok name /\ skip_name name = false /\ DirItem_Type di = Ok t /\ DirItem_Location di = Ok loc /\
    ((KType loc = RootItemKey /\ k' = (ObjectID loc, FirstFreeObjectID)) \/
     (KType loc <> RootItemKey /\ t = FtDir /\ k' = (o, ObjectID loc))).
(** a directory is (tree, object id); an edge of the directory graph *)
Definition edge (q : queries) (k k' : Z * Z) : Prop :=
  exists e, In e (st_items (q_dirItems q (fst k) (snd k))) /\ names_dir (fst k) (snd e) k'.
(** where recover starts: the main tree and every subvolume *)
Definition start (q : queries) (k : Z * Z) : Prop :=
  k = (FSTreeObjectID, FirstFreeObjectID) \/
  exists e, In e (st_items (q_subvolumes q)) /\ k = (ObjectID (ik_Key (fst e)), FirstFreeObjectID).
Inductive reachable (q : queries) : Z * Z -> Prop :=
| reach_start k : start q k -> reachable q k
| reach_edge k k' : reachable q k -> edge q k k' -> reachable q k'.
(** the directories whose items were read, in a log *)
Fixpoint listed (evs : list event) : list (Z * Z) :=
  match evs with
  | [] => []
  | EvList o d :: evs => (o, d) :: listed evs
  | _ :: evs => listed evs
  end.

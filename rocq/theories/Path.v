(** pkg/btrfs/index/index_store.go: FindDirItemForPath *)
From Verif Require Export Go Layout KeyFmt Bolt Store Crc RangeItems.

Definition slash : byte := x2f.
(** strings.TrimLeft(path, "/"), index_store.go:503 *)
Fixpoint TrimLeft (p : list byte) : list byte :=
  match p with c :: r => if beqb c slash then TrimLeft r else p | [] => [] end.
(** strings.Split(s, "/"), index_store.go:503 *)
Fixpoint Split (s : list byte) : list (list byte) :=
  match s with
  | [] => [[]]
  | c :: r => if beqb c slash then [] :: Split r
              else match Split r with w :: ws => (c :: w) :: ws | [] => [[c]] end
  end.
(* index_store.go:520-525: the slow path's loop; state = the found item *)
Definition slow_body (comp : list byte) (last : bool) (k : list byte) (d : slice) (s : option slice) : Res (option slice * bool) :=
  n <- DirItem_Name d ;;
  if bytes_eqb n comp then
    isd <- (t <- DirItem_IsDir d ;; Ok t) ;;
    if isd || last then Ok (Some d, true) else Ok (s, false)
  else Ok (s, false).
(* index_store.go:505-530: one component; the item found *)
Definition find_comp (fuel : nat) (b : bucket) (gen owner dirID : Z) (comp : list byte) (last : bool) : Res (option slice) :=
  v <- FindItem b gen owner (KF3 DirItemKey dirID (NameHash comp)) ;;
  fast <- (match v with
           | Some v => d <- valueData v ;; n <- DirItem_Name d ;; Ok (if bytes_eqb n comp then Some d else None)
           | None => Ok None
           end) ;;
  match fast with
  | Some d => Ok (Some d)
  | None => range_for fuel b (DirItems b gen owner dirID) (keyed (slow_body comp last)) None
  end.
(* index_store.go:504-538 *)
Fixpoint path_loop (fuel : nat) (b : bucket) (gen owner dirID : Z) (comps : list (list byte)) (result : option slice) : Res (option slice) :=
  match comps with
  | [] => Ok result
  | comp :: rest =>
      f <- find_comp fuel b gen owner dirID comp (match rest with [] => true | _ => false end) ;;
      match f with
      | None => Ok None
      | Some d =>
          sv <- DirItem_IsSubvolume d ;;
          loc <- DirItem_Location d ;;
          if (sv : bool) then path_loop fuel b gen (ObjectID loc) FirstFreeObjectID rest (Some d)
          else path_loop fuel b gen owner (ObjectID loc) rest (Some d)
      end
  end.
(* index_store.go:498-539 *)
Definition FindDirItemForPath (fuel : nat) (b : bucket) (gen owner : Z) (path : list byte) : Res (option slice) :=
  path_loop fuel b gen owner FirstFreeObjectID (Split (TrimLeft path)) None.

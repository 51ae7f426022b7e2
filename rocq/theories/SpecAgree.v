(** Specification: a mounted node and a restored file are the same (C87). *)
From Verif Require Import Go Layout KeyFmt Fs Recover Rescue SpecMount PropsRescueNode.
From Coq Require Import List Permutation.

(** the node [n] of the mount (is it a directory?) against what file tree [F] has at path [p]: directories
    list the same names, once each; files have the same size and, read with any buffer, the same content; links the
    same target *)
Definition same_as (q : queries) (dev : readerAt) (n : node_state) (isd : bool) (F : fs) (p : cpath) : Prop :=
  match look F p with
  | Some NDir => isd = true /\ forall ord, (forall m, Permutation (ord m) m) -> exists n' es, OpenDir q ord n = Ok (n', es) /\
      NoDup (map fst es) /\ (forall name, In name (map fst es) <-> look F (p ++ [name]) <> None) /\
      (forall name mode, In (name, mode) es -> mode = S_IFDIR <-> look F (p ++ [name]) = Some NDir)
  | Some (NFile c) => isd = false /\ (exists n' a, GetAttr q n = Ok (n', Some a, OK) /\ a_size a = zlen c) /\
      exists f, Open q n = Ok (Some f, OK) /\ forall buf, buf <> [] -> zlen c + zlen buf < 2^63 -> exists fuel, read_on fuel (Reader dev) f buf (zlen c) [] = Some c
  | Some (NLink l) => isd = false /\ Readlink q n = Ok (Some l, OK)
  | None => False
  end.

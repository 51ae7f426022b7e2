(** Concurrent FUSE requests (the mount command serves each request in its own
    goroutine): the two places where requests share mutable state without a
    lock, Index.stripeMap (pkg/btrfs/index/index_store.go:464-495) and
    rescueNode.dirItems (internal/rescuefs/nodefs.go:133-140).

    A state is the shared variable and one program counter per request; a
    schedule is any list of request numbers.  Simplifications: loads and stores
    of a slice header or map entry are atomic and sequentially consistent (the
    Go memory model promises less), two appends never share a backing array, the
    runtime's detection of concurrent map access (which kills the process) is
    left out, and iterating over a map sees one state of it.  The database reads
    between the steps do not change anything shared and are folded into the
    list of entries to add. *)
From Verif Require Export Go Layout KeyFmt Bolt Store.

(** ** interleavings *)
Section Interleave.
  Context {Sh Arg Pc : Type}.
  Variable tstep : Arg -> Sh -> Pc -> Sh * Pc.
  Definition sys : Type := Sh * list (Arg * Pc).
  Fixpoint upd (ts : list (Arg * Pc)) (i : nat) (p : Pc) : list (Arg * Pc) :=
    match ts, i with
    | [], _ => []
    | (a, _) :: r, O => (a, p) :: r
    | t :: r, S i => t :: upd r i p
    end.
  (** request [i] takes one step; unknown requests do nothing *)
  Definition step1 (s : sys) (i : nat) : sys :=
    match nth_error (snd s) i with
    | Some (a, p) => let '(sh, p') := tstep a (fst s) p in (sh, upd (snd s) i p')
    | None => s
    end.
  Definition run (s : sys) (sched : list nat) : sys := fold_left step1 sched s.
End Interleave.

(** ** Index.Physical, index_store.go:464-495 *)
Inductive ppc :=
| PStart                                   (* 465: if ix.stripeMap == nil *)
| PMake                                    (* 466 *)
| PLoad (rest : list stripeMapEntry)       (* 467-473: next chunk; load ix.stripeMap *)
| PStore (rest : list stripeMapEntry) (e : stripeMapEntry) (loc : list stripeMapEntry) (* 473-476: store the appended slice *)
| PLen                                     (* 481 *)
| PProbe (n i j : Z)                       (* 483-485: inside sort.Search *)
| PAdj (n i : Z)                           (* 486-491 *)
| PRead (i : Z)                            (* 492 *)
| PDone (r : Z * Z)
| PPanic.
(* len(ix.stripeMap), ix.stripeMap[i] of a nil or allocated slice (index_store.go:481-492) *)
Definition lst (sh : option (list stripeMapEntry)) : list stripeMapEntry := match sh with Some m => m | None => [] end.
(** index_store.go:464-495, one memory access per step.  [C]: the entries the chunks of the index give, in order *)
Definition phys_step (C : list stripeMapEntry) (logical : Z) (sh : option (list stripeMapEntry)) (p : ppc) :
  option (list stripeMapEntry) * ppc :=
  match p with
  | PStart => (sh, match sh with None => PMake | Some _ => PLen end)
  | PMake => (Some [], PLoad C)
  | PLoad [] => (sh, PLen)
  | PLoad (e :: rest) => (sh, PStore rest e (lst sh))
  | PStore rest e loc => (Some (loc ++ [e]), PLoad rest)
  | PLen => (sh, PProbe (zlen (lst sh)) 0 (zlen (lst sh)))
  | PProbe n i j =>
      (sh, if i <? j then
             match sm_index (lst sh) ((i + j) / 2) with
             | Ok e => if logical <=? sm_logical e then PProbe n i ((i + j) / 2) else PProbe n ((i + j) / 2 + 1) j
             | _ => PPanic
             end
           else PAdj n i)
  | PAdj n i =>
      (sh, if i =? n then PRead (i - 1)
           else if 0 <? i then
             match sm_index (lst sh) i with
             | Ok e => if sm_logical e =? logical then PRead i else PRead (i - 1)
             | _ => PPanic
             end
           else PRead i)
  | PRead i =>
      (sh, match sm_index (lst sh) i with
           | Ok s => PDone (sm_devID s, u64 (u64 (sm_offset s + logical) - sm_logical s))
           | _ => PPanic
           end)
  | PDone _ | PPanic => (sh, p)
  end.
(** concurrent calls of index_store.go:464 for the given addresses *)
Definition phys_init (sh : option (list stripeMapEntry)) (ls : list Z) : sys := (sh, map (fun l => (l, PStart)) ls).

(** ** rescueNode.ensureDirItems and its users, nodefs.go:133-173 *)
Definition dirmap := list (list byte * slice).
(* n.dirItems[name] (nodefs.go:145) and n.dirItems[name] = d (nodefs.go:138) *)
Definition mget (m : dirmap) (n : list byte) : option slice :=
  option_map snd (List.find (fun e => bytes_eqb (fst e) n) m).
Fixpoint mset (m : dirmap) (n : list byte) (d : slice) : dirmap :=
  match m with
  | [] => [(n, d)]
  | (n', d') :: r => if bytes_eqb n' n then (n, d) :: r else (n', d') :: mset r n d
  end.
Inductive dpc :=
| DStart                     (* 134: if len(n.dirItems) > 0 *)
| DFill (rest : dirmap)      (* 137-139 *)
| DUse                       (* 145 / 166: Lookup or OpenDir reads the map *)
| DDone (seen : dirmap).
(** nodefs.go:133-173, one map access per step.  [L]: names and items of the directory in iteration order *)
Definition dir_step (L : dirmap) (_ : unit) (m : dirmap) (p : dpc) : dirmap * dpc :=
  match p with
  | DStart => (m, match m with [] => DFill L | _ => DUse end)
  | DFill [] => (m, DUse)
  | DFill ((n, d) :: rest) => (mset m n d, DFill rest)
  | DUse => (m, DDone m)
  | DDone s => (m, DDone s)
  end.
(* concurrent calls of nodefs.go:142 (Lookup) or 162 (OpenDir) *)
Definition dir_init (m : dirmap) (k : nat) : sys := (m, repeat (tt, DStart) k).

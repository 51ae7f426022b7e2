(** The part of the operating system the recover command talks to: a file tree
    with files, directories and symbolic links, path resolution, the system
    calls behind os.Stat, Lstat, Mkdir, OpenFile, WriteAt, Truncate, Remove and
    Symlink, plus os.MkdirAll and path/filepath.Clean/Join of the Go library.
    None of this is code of /repo; /repo/cmd/recover.go calls it.

    Simplifications: no permissions, owners, hard links, mounts, quotas or other
    processes; failures that depend on them are the fault oracle of [env].  A
    trailing slash or "/." of a path is ignored.  A handle stays attached to the
    canonical path it was opened at (recover.go has one handle at a time and
    removes nothing while it is open). *)
From Verif Require Export Go Path IoUtil.
From Coq Require Import List.

Notation comp := (list byte).
Notation cpath := (list (list byte)).
Inductive node := NFile (content : list byte) | NDir | NLink (target : list byte).
(** canonical path (components from the root) -> node; the root is a directory *)
Definition fs := list (cpath * node).
Definition cpath_dec (a b : cpath) : {a = b} + {a <> b} := list_eq_dec (list_eq_dec Byte.byte_eq_dec) a b.
Fixpoint assoc (F : fs) (p : cpath) : option node :=
  match F with
  | [] => None
  | (q, n) :: F => if cpath_dec q p then Some n else assoc F p
  end.
Definition look (F : fs) (p : cpath) : option node := match p with [] => Some NDir | _ => assoc F p end.
Definition del (F : fs) (p : cpath) : fs := filter (fun e => if cpath_dec (fst e) p then false else true) F.
Definition put_node (F : fs) (p : cpath) (n : node) : fs := (p, n) :: del F p.
(** does directory [p] have an entry? *)
Fixpoint is_child (p q : cpath) : bool :=
  match p, q with
  | [], [_] => true
  | c :: p, d :: q => if list_eq_dec Byte.byte_eq_dec c d then is_child p q else false
  | _, _ => false
  end.
Definition has_child (F : fs) (p : cpath) : bool := existsb (fun e => is_child p (fst e)) F.

Definition dot : byte := x2e.
Definition is_dot (c : comp) : bool := bytes_eqb c [dot].
Definition is_dotdot (c : comp) : bool := bytes_eqb c [dot; dot].
Definition is_nil (c : comp) : bool := match c with [] => true | _ => false end.
(** the components that matter *)
Definition comps (s : list byte) : list comp := filter (fun c => negb (is_nil c || is_dot c)) (Split s).
Definition is_abs (s : list byte) : bool := match s with c :: _ => beqb c slash | [] => false end.
(** names the kernel refuses: longer than NAME_MAX *)
Definition long_name (c : comp) : bool := 255 <? zlen c.

(** Path walk from directory [cur] over [todo] with at most [links] symbolic
    links; [follow]: is a link in last position followed?  Gives the canonical
    path, whose last component need not exist; None is any error (ENOENT,
    ENOTDIR, ELOOP, ENAMETOOLONG). *)
Fixpoint walk (links : nat) (F : fs) (follow : bool) {struct links} : list comp -> cpath -> option cpath :=
  fix go (todo : list comp) (cur : cpath) {struct todo} : option cpath :=
    match todo with
    | [] => Some cur
    | c :: rest =>
        if is_dotdot c then go rest (removelast cur)
        else if long_name c then None
        else
          match look F (cur ++ [c]) with
          | Some NDir => go rest (cur ++ [c])
          | Some (NLink t) =>
              if match rest with [] => negb follow | _ => false end then Some (cur ++ [c])
              else match links with
                   | O => None
                   | S links => walk links F follow (comps t ++ rest) (if is_abs t then [] else cur)
                   end
          | Some (NFile _) | None => match rest with [] => Some (cur ++ [c]) | _ => None end
          end
    end.
Definition max_links : nat := 40.
(** a path argument: not empty, below PATH_MAX, without NUL *)
Definition path_arg (s : list byte) : bool :=
  negb (is_nil s) && (zlen s <? 4096) && negb (existsb (fun c => beqb c x00) s).
Definition resolve (F : fs) (cwd : cpath) (follow : bool) (s : list byte) : option cpath :=
  if path_arg s then walk max_links F follow (comps s) (if is_abs s then [] else cwd) else None.

(** ** System calls: the new tree and the result (None = error) *)
Inductive kind := KFile | KDir | KLink.
Definition kind_of (n : node) : kind := match n with NFile _ => KFile | NDir => KDir | NLink _ => KLink end.
(* os.Stat, os.Lstat *)
Definition sys_stat (cwd : cpath) (follow : bool) (s : list byte) (F : fs) : fs * option kind :=
  (F, match resolve F cwd follow s with
      | Some p => option_map kind_of (look F p)
      | None => None
      end).
Definition sys_mkdir (cwd : cpath) (s : list byte) (F : fs) : fs * option unit :=
  match resolve F cwd false s with
  | Some p => match look F p with None => (put_node F p NDir, Some tt) | Some _ => (F, None) end
  | None => (F, None)
  end.
(* os.OpenFile(s, O_CREATE|O_WRONLY|O_TRUNC): the handle *)
Definition sys_open (cwd : cpath) (s : list byte) (F : fs) : fs * option cpath :=
  match resolve F cwd true s with
  | Some p =>
      match look F p with
      | None | Some (NFile _) => (put_node F p (NFile []), Some p)
      | Some _ => (F, None)
      end
  | None => (F, None)
  end.
Definition zeros (n : Z) : list byte := repeat x00 (Z.to_nat n).
(** overwrite [data] at [off], filling a gap with zeroes *)
Definition patch (c data : list byte) (off : Z) : list byte :=
  firstn (Z.to_nat off) (c ++ zeros (off - zlen c)) ++ data ++ skipn (Z.to_nat (off + zlen data)) c.
Definition resize (c : list byte) (size : Z) : list byte := firstn (Z.to_nat size) (c ++ zeros (size - zlen c)).
(* f.WriteAt(data, off): nothing happens for empty data; the file cannot grow past 2^63-1 *)
Definition sys_write (h : cpath) (data : list byte) (off : Z) (F : fs) : fs * option unit :=
  if off <? 0 then (F, None)
  else if is_nil data then (F, Some tt)
  else if 2^63 - 1 <? off + zlen data then (F, None)
  else match look F h with
       | Some (NFile c) => (put_node F h (NFile (patch c data off)), Some tt)
       | _ => (F, None)
       end.
(** a write cut short after [k] bytes *)
Definition sys_write_some (h : cpath) (data : list byte) (off : Z) (k : nat) (F : fs) : fs :=
  fst (sys_write h (firstn k data) off F).
Definition sys_trunc (h : cpath) (size : Z) (F : fs) : fs * option unit :=
  if size <? 0 then (F, None)
  else match look F h with
       | Some (NFile c) => (put_node F h (NFile (resize c size)), Some tt)
       | _ => (F, None)
       end.
(* os.Remove: unlink, or rmdir of an empty directory *)
Definition sys_remove (cwd : cpath) (s : list byte) (F : fs) : fs * option unit :=
  match resolve F cwd false s with
  | Some p =>
      match p, look F p with
      | [], _ | _, None => (F, None)
      | _, Some NDir => if has_child F p then (F, None) else (del F p, Some tt)
      | _, Some _ => (del F p, Some tt)
      end
  | None => (F, None)
  end.
Definition sys_symlink (cwd : cpath) (target s : list byte) (F : fs) : fs * option unit :=
  if path_arg target then
    match resolve F cwd false s with
    | Some p => match look F p with None => (put_node F p (NLink target), Some tt) | Some _ => (F, None) end
    | None => (F, None)
    end
  else (F, None).

(** ** A process using them *)
Inductive opk := OStat | OLstat | OMkdir | OOpen | OWrite | OTrunc | ORemove | OSymlink.
(** what a warning is about *)
Inductive wkind := WDir | WFile | WLink.
Inductive event :=
| EvOp (k : opk) (path : list byte) (ok : bool)   (** a system call returned *)
| EvDead (k : opk) (path : list byte)             (** killed during a system call *)
| EvRead (off n got : Z) (err : option ioerr)      (** a read from the device *)
| EvList (owner dir : Z)                           (** a directory's items are read *)
| EvWarn (what : wkind) (path : list byte).        (** a failure is reported *)
(** what happens to a system call: normal; an error (a write after [k] bytes);
    the process is killed (a write after [k] bytes) *)
Inductive fault := FNone | FErr (k : nat) | FCrash (k : nat).
Record env := mkEnv { e_cwd : cpath; e_faults : nat -> opk -> fault }.
Record world := mkWorld { w_fs : fs; w_ops : nat; w_log : list event (* newest first *) }.
Inductive out (A : Type) := Ret (a : A) | OPanic | OCrash | OTimeout.
Arguments Ret {A} a.
Arguments OPanic {A}.
Arguments OCrash {A}.
Arguments OTimeout {A}.
Definition M (A : Type) : Type := world -> world * out A.
Definition ret {A} (a : A) : M A := fun w => (w, Ret a).
Definition bind {A B} (m : M A) (f : A -> M B) : M B := fun w =>
  match m w with
  | (w, Ret a) => f a w
  | (w, OPanic) => (w, OPanic)
  | (w, OCrash) => (w, OCrash)
  | (w, OTimeout) => (w, OTimeout)
  end.
Notation "x <~ m ;; k" := (bind m (fun x => k)) (at level 100, m at next level, right associativity).
Notation "' p <~ m ;; k" := (bind m (fun x => match x with p => k end)) (at level 100, p pattern, m at next level, right associativity).
Definition lift {A} (r : Res A) : M A := fun w =>
  match r with Ok a => (w, Ret a) | Panic => (w, OPanic) | Timeout => (w, OTimeout) end.
Definition emit (e : event) : M unit := fun w => (mkWorld (w_fs w) (w_ops w) (e :: w_log w), Ret tt).
Definition is_some {A} (o : option A) : bool := match o with Some _ => true | None => false end.
Definition syscall {A} (E : env) (k : opk) (s : list byte) (eff : fs -> fs * option A) (part : nat -> fs -> fs) : M (option A) := fun w =>
  match e_faults E (w_ops w) k with
  | FNone => let '(F, r) := eff (w_fs w) in (mkWorld F (S (w_ops w)) (EvOp k s (is_some r) :: w_log w), Ret r)
  | FErr n => (mkWorld (part n (w_fs w)) (S (w_ops w)) (EvOp k s false :: w_log w), Ret None)
  | FCrash n => (mkWorld (part n (w_fs w)) (S (w_ops w)) (EvDead k s :: w_log w), OCrash)
  end.
Definition nothing (_ : nat) (F : fs) : fs := F.
Definition Stat (E : env) (s : list byte) : M (option kind) := syscall E OStat s (sys_stat (e_cwd E) true s) nothing.
Definition Lstat (E : env) (s : list byte) : M (option kind) := syscall E OLstat s (sys_stat (e_cwd E) false s) nothing.
Definition Mkdir (E : env) (s : list byte) : M (option unit) := syscall E OMkdir s (sys_mkdir (e_cwd E) s) nothing.
Definition OpenFile (E : env) (s : list byte) : M (option cpath) := syscall E OOpen s (sys_open (e_cwd E) s) nothing.
(** [s] is the name the handle was opened with (for the log) *)
Definition WriteAt (E : env) (h : cpath) (s data : list byte) (off : Z) : M (option unit) :=
  syscall E OWrite s (sys_write h data off) (sys_write_some h data off).
Definition FTruncate (E : env) (h : cpath) (s : list byte) (size : Z) : M (option unit) :=
  syscall E OTrunc s (sys_trunc h size) nothing.
Definition Remove (E : env) (s : list byte) : M (option unit) := syscall E ORemove s (sys_remove (e_cwd E) s) nothing.
Definition Symlink (E : env) (target s : list byte) : M (option unit) := syscall E OSymlink s (sys_symlink (e_cwd E) target s) nothing.

(** ** os.MkdirAll (Go 1.18, os/path.go:19-62); result: is the error nil?
    [parent_of s] = s[:j-1] when j > 1: drop trailing separators, the last
    element and one separator. *)
Fixpoint drop_while (f : byte -> bool) (l : list byte) : list byte :=
  match l with c :: r => if f c then drop_while f r else l | [] => [] end.
Definition parent_of (s : list byte) : option (list byte) :=
  let r := drop_while (fun c => negb (beqb c slash)) (drop_while (fun c => beqb c slash) (rev s)) in
  match r with
  | _ :: ((_ :: _) as t) => Some (rev t)
  | _ => None
  end.
Definition is_kdir (k : option kind) : bool := match k with Some KDir => true | _ => false end.
Fixpoint MkdirAll_loop (fuel : nat) (E : env) (s : list byte) : M bool :=
  match fuel with
  | O => fun w => (w, OTimeout)
  | S fuel =>
      k <~ Stat E s ;;
      match k with
      | Some KDir => ret true
      | Some _ => ret false
      | None =>
          ok <~ match parent_of s with Some p => MkdirAll_loop fuel E p | None => ret true end ;;
          if ok : bool then
            r <~ Mkdir E s ;;
            match r with
            | Some _ => ret true
            | None => k <~ Lstat E s ;; ret (is_kdir k)
            end
          else ret false
      end
  end.
Definition MkdirAll (E : env) (s : list byte) : M bool := MkdirAll_loop (S (length s)) E s.

(** ** path/filepath.Clean and Join on Unix (Go standard library), on components:
    drop "" and ".", cancel "x/..", drop ".." at the root. *)
Fixpoint clean_comps (rooted : bool) (l : list comp) (st : list comp (* reversed *)) : list comp :=
  match l with
  | [] => rev st
  | c :: l =>
      if is_dotdot c then
        match st with
        | d :: st' => if is_dotdot d then clean_comps rooted l (c :: st) else clean_comps rooted l st'
        | [] => if rooted then clean_comps rooted l st else clean_comps rooted l [c]
        end
      else clean_comps rooted l (c :: st)
  end.
Fixpoint join_comps (l : list comp) : list byte :=
  match l with
  | [] => []
  | [c] => c
  | c :: l => c ++ slash :: join_comps l
  end.
Definition Clean (s : list byte) : list byte :=
  let r := join_comps (clean_comps (is_abs s) (comps s) []) in
  if is_abs s then slash :: r else if is_nil r then [dot] else r.
Definition Join (a b : list byte) : list byte :=
  if is_nil a then if is_nil b then [] else Clean b else Clean (a ++ slash :: b).

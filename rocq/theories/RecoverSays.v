(** cmd/recover.go once more, with what the command tells on standard output when --verbose is given
    (cliutil.Verbosef).  The steps are those of Recover.v (theorem C106_same); added are the lines.  Left out are the
    "stripe:" lines of the first Physical call (Stdout.v) and the text of the warnings, whose order and subject is in the log. *)
From Verif Require Import Go Layout KeyFmt Bolt Store ToString Fs Recover.
From Coq Require Import Strings.String.
From Coq Require Import List.
Import ListNotations.

(** one call of Verbosef *)
Inductive said :=
| SRoot (owner : Z)                                 (* recover.go:67 *)
| SSubvol (owner : Z) (path : list byte)             (* recover.go:79 *)
| SSpecial (path : list byte) (type : Z)             (* recover.go:130 *)
| SExists (path : list byte)                         (* recover.go:138 *)
| SFile (path : list byte) (size : Z)                (* recover.go:154 *)
| SLinkExists (path : list byte)                     (* recover.go:228 *)
| SLink (path target : list byte).                   (* recover.go:257 *)
(** the text without the newline: the format strings at the lines above *)
Definition text_of (s : said) : list byte :=
  match s with
  | SRoot o => str "Recovering root directory tree from subvolume "%string ++ dec o ++ str "..."%string
  | SSubvol o p => str "Recovering unreferenced subvolume "%string ++ dec o ++ str " to "%string ++ p ++ str "..."%string
  | SSpecial p t => str "skipping special file "%string ++ p ++ str " of type "%string ++ dec t
  | SExists p => str "file "%string ++ p ++ str " already exists, skipping (--clobber not specified)"%string
  | SFile p n => str "recovering file: "%string ++ p ++ str " (size: "%string ++ dec n ++ str ")"%string
  | SLinkExists p => str "symlink "%string ++ p ++ str " already exists, skipping (--clobber not specified)"%string
  | SLink p t => str "recovering symlink: "%string ++ p ++ str " -> "%string ++ t
  end.
(** what the calls of Verbosef write (cliutil.go:34-38); the list is the newest first *)
Definition transcript (verbose : bool) (l : list said) : list byte :=
  if verbose then concat (map (fun s => text_of s ++ [x0a]) (rev l)) else [].

(** A process that changes the world and says things; lines said before a crash or a panic have been said. *)
Definition V (A : Type) : Type := world * list said -> (world * list said) * out A.
Definition up {A} (m : M A) : V A := fun '(w, s) => let '(w', o) := m w in ((w', s), o).
Definition say (x : said) : V unit := fun '(w, s) => ((w, x :: s), Ret tt).
Definition vret {A} (a : A) : V A := fun ws => (ws, Ret a).
Definition vbind {A B} (m : V A) (f : A -> V B) : V B := fun ws =>
  match m ws with
  | (ws, Ret a) => f a ws
  | (ws, OPanic) => (ws, OPanic)
  | (ws, OCrash) => (ws, OCrash)
  | (ws, OTimeout) => (ws, OTimeout)
  end.
Notation "x <+ m ;; k" := (vbind m (fun x => k)) (at level 100, m at next level, right associativity).

(* recover.go:156-223 *)
Definition rest_of_file (cfuel : nat) (E : env) (dev : readerAt) (q : queries) (path : list byte) (ii : option Z) (h : cpath) (xs : stream) : M bool :=
  match st_items xs with
  | [] =>
      _ <~ lift (st_end xs) ;;
      _ <~ (match ii with Some size => FTruncate E h path (i64 size) | None => ret None end) ;;
      ret true
  | l =>
      f <~ extents_loop cfuel E dev q h path ii l (st_end xs) ;;
      match f with
      | Returned ok => ret ok
      | Go_on =>
          match ii with
          | Some size => r <~ FTruncate E h path (i64 size) ;; ret (is_some r)
          | None => ret true
          end
      end
  end.
(* recover.go:136-223 *)
Definition recoverFileV (cfuel : nat) (E : env) (dev : readerAt) (q : queries) (clobber : bool) (owner inode : Z) (path : list byte) : V bool :=
  k <+ up (Stat E path) ;;
  if is_some k && negb clobber then _ <+ say (SExists path) ;; vret true
  else
    i <+ up (lift (q_inode q owner inode)) ;;
    ii <+ up (lift (match i with Some d => s <- InodeItem_Size d ;; Ok (Some s) | None => Ok None end)) ;;
    h <+ up (OpenFile E path) ;;
    match h with
    | None => vret false
    | Some h =>
        _ <+ say (SFile path (match ii with Some size => size | None => 0 end)) ;;
        up (rest_of_file cfuel E dev q path ii h (q_extents q owner inode))
    end.
(* recover.go:225-259 *)
Definition recoverSymlinkV (E : env) (dev : readerAt) (q : queries) (clobber : bool) (owner inode : Z) (path : list byte) : V bool :=
  k <+ up (Lstat E path) ;;
  if is_some k && negb clobber then _ <+ say (SLinkExists path) ;; vret true
  else
    _ <+ up (if is_some k then Remove E path else ret None) ;;
    e <+ up (lift (q_extent0 q owner inode)) ;;
    match e with
    | None => vret false
    | Some e =>
        t <+ up (link_target dev q e) ;;
        match t with
        | None => vret false
        | Some t => _ <+ say (SLink path t) ;; r <+ up (Symlink E t path) ;; vret (is_some r)
        end
    end.
(* recover.go:104-107, 130: an entry that is neither directory, subvolume, file nor link, with a name that is not refused *)
Definition special (dest : list byte) (di : slice) : Res (option (list byte * Z)) :=
  name <- DirItem_Name di ;;
  if skip_name name then Ok None else t <- DirItem_Type di ;; Ok (Some (Join dest name, t)).
Section ItemsV.
  (** the recursive call *)
  Variable rec : Z -> Z -> list byte -> list (Z * Z) -> V (list (Z * Z) * bool).
  (* recover.go:103-132 *)
  Fixpoint items_loopV (cfuel : nat) (E : env) (dev : readerAt) (q : queries) (clobber : bool) (owner : Z) (dest : list byte)
      (l : list (list byte * slice)) (v : list (Z * Z)) : V (list (Z * Z)) :=
    match l with
    | [] => vret v
    | (_, di) :: l =>
        a <+ up (lift (classify owner dest di)) ;;
        v <+ match a with
             | ASkip =>
                 s <+ up (lift (special dest di)) ;;
                 _ <+ match s with Some (p, t) => say (SSpecial p t) | None => vret tt end ;; vret v
             | ADir o d p => r <+ rec o d p v ;; _ <+ up (if snd r : bool then ret tt else emit (EvWarn WDir p)) ;; vret (fst r)
             | AFile i p => ok <+ recoverFileV cfuel E dev q clobber owner i p ;; _ <+ up (if ok : bool then ret tt else emit (EvWarn WFile p)) ;; vret v
             | ALink i p => ok <+ recoverSymlinkV E dev q clobber owner i p ;; _ <+ up (if ok : bool then ret tt else emit (EvWarn WLink p)) ;; vret v
             end ;;
        items_loopV cfuel E dev q clobber owner dest l v
    end.
End ItemsV.
(* recover.go:87-134 *)
Fixpoint recoverDirV (fuel cfuel : nat) (E : env) (dev : readerAt) (q : queries) (clobber : bool) (owner dir : Z) (dest : list byte) (v : list (Z * Z)) :
  V (list (Z * Z) * bool) :=
  match fuel with
  | O => fun ws => (ws, OTimeout)
  | S fuel =>
      if key_in (owner, dir) v then vret (v, true)
      else
        let v := (owner, dir) :: v in
        ok <+ up (MkdirAll E dest) ;;
        if negb ok then vret (v, false)
        else
          _ <+ up (emit (EvList owner dir)) ;;
          let xs := q_dirItems q owner dir in
          _ <+ up (lift (st_end xs)) ;;
          v <+ items_loopV (recoverDirV fuel cfuel E dev q clobber) cfuel E dev q clobber owner dest (st_items xs) v ;;
          vret (v, true)
  end.
(* recover.go:73-84 *)
Fixpoint subvols_loopV (fuel cfuel : nat) (E : env) (dev : readerAt) (q : queries) (clobber : bool) (dest : list byte)
    (l : list (list byte * slice)) (fin : Res unit) (v : list (Z * Z)) : V (list (Z * Z)) :=
  match l with
  | [] => _ <+ up (lift fin) ;; vret v
  | (k, _) :: l =>
      let o := ObjectID (ik_Key k) in
      v <+ (if key_in (o, FirstFreeObjectID) v then vret v
            else
              _ <+ say (SSubvol o (subvol_dest dest o)) ;;
              r <+ recoverDirV fuel cfuel E dev q clobber o FirstFreeObjectID (subvol_dest dest o) v ;;
              _ <+ up (if snd r : bool then ret tt else emit (EvWarn WDir (subvol_dest dest o))) ;; vret (fst r)) ;;
      subvols_loopV fuel cfuel E dev q clobber dest l fin v
  end.
(* recover.go:57-85 *)
Definition doRecoverFilesV (fuel cfuel : nat) (E : env) (dev : readerAt) (q : queries) (clobber : bool) (dest : list byte) : V (bool * list (Z * Z)) :=
  ok <+ up (MkdirAll E dest) ;;
  if negb ok then _ <+ up (emit (EvWarn WDir dest)) ;; vret (false, [])
  else
    _ <+ say (SRoot FSTreeObjectID) ;;
    r <+ recoverDirV fuel cfuel E dev q clobber FSTreeObjectID FirstFreeObjectID dest [] ;;
    _ <+ up (if snd r : bool then ret tt else emit (EvWarn WDir dest)) ;;
    v <+ subvols_loopV fuel cfuel E dev q clobber dest (st_items (q_subvolumes q)) (st_end (q_subvolumes q)) (fst r) ;;
    vret (true, v).

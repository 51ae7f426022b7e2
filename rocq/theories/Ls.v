(** cmd/ls.go and cmd/dump_index.go: the listing commands, up to the text they hand to
    text/tabwriter (ls) or standard output (dump-index).  The tabwriter, which aligns the
    columns, is in Tabwriter.v. *)
From Verif Require Export Go Layout KeyFmt Bolt Store ToString Path Fs Recover.
From Coq Require Import Strings.String.

(* ls.go:25-44 *)
Definition dirItemTypeString (t : Z) : list byte :=
  if t =? FtRegFile then str "-"%string
  else if t =? FtBlkdev then str "b"%string
  else if t =? FtChrdev then str "c"%string
  else if t =? FtDir then str "d"%string
  else if t =? FtSymlink then str "l"%string
  else if t =? FtFifo then str "p"%string
  else if t =? FtSock then str "s"%string
  else str "?"%string.
(* ls.go:47-55 *)
Definition FilePerms : list byte := str "---"%string ++ str "--x"%string ++ str "-w-"%string ++ str "-wx"%string ++ str "r--"%string ++ str "r-x"%string ++ str "rw-"%string ++ str "rwx"%string.
(** s[a:b] of a string constant, ls.go:57 *)
Definition substr (s : list byte) (a b : Z) : Res (list byte) :=
  if (0 <=? a) && (a <=? b) && (b <=? zlen s) then Ok (firstn (Z.to_nat (b - a)) (skipn (Z.to_nat a) s)) else Panic.
(* ls.go:46-58 *)
Definition inodeModeString (mode : Z) : Res (list byte) :=
  let u := 3 * Z.land (Z.shiftr mode 6) 7 in
  let g := 3 * Z.land (Z.shiftr mode 3) 7 in
  let o := 3 * Z.land mode 7 in
  a <- substr FilePerms u (u + 3) ;;
  b <- substr FilePerms g (g + 3) ;;
  c <- substr FilePerms o (o + 3) ;;
  Ok (a ++ b ++ c).

(* the literals of ls.go:69-79 *)
Definition tab : byte := x09.
Definition newline : byte := x0a.
Definition no_inode : list byte := repeat x3f 9 ++ tab :: x3f :: tab :: x3f :: tab :: x3f :: tab :: x3f :: tab :: [x3f].
Section Ls.
  (** ls.go:60-62: t.Format in the local time zone, given seconds and nanoseconds *)
  Variable shortTime : Z * Z -> list byte.
  (* ls.go:64-80 *)
  Definition listDirItem (q : queries) (owner : Z) (di : slice) (showInode : bool) : Res (list byte) :=
    loc <- DirItem_Location di ;;
    let ino := if showInode then dec (ObjectID loc) ++ [tab] else [] in
    t <- DirItem_Type di ;;
    i <- q_inode q owner (ObjectID loc) ;;
    info <- match i with
            | None => Ok no_inode
            | Some ii =>
                mode <- InodeItem_Mode ii ;;
                m <- inodeModeString mode ;;
                nlink <- InodeItem_Nlink ii ;;
                uid <- InodeItem_UID ii ;;
                gid <- InodeItem_GID ii ;;
                size <- InodeItem_Size ii ;;
                c <- InodeItem_Ctime ii ;;
                Ok (m ++ tab :: dec nlink ++ tab :: dec uid ++ tab :: dec gid ++ tab :: dec size ++ tab :: shortTime c)
            end ;;
    n <- DirItem_Name di ;;
    Ok (ino ++ dirItemTypeString t ++ info ++ tab :: n ++ [newline]).

  (* ls.go:85-93 *)
  Definition Less (a b : slice) : Res bool :=
    da <- DirItem_IsDir a ;;
    db <- DirItem_IsDir b ;;
    if negb da && db then Ok true
    else if da && negb db then Ok false
    else
      na <- DirItem_Name a ;;
      nb <- DirItem_Name b ;;
      Ok (bytes_ltb na nb).

  (** sort.Sort with Less (ls.go:102): any algorithm, see [sorter] in PropsLs *)
  Variable sort : list slice -> Res (list slice).
  (* ls.go:105-111 *)
  Fixpoint list_items (q : queries) (owner : Z) (recursive showInode : bool) (l : list slice) : Res (list byte * list slice) :=
    match l with
    | [] => Ok ([], [])
    | di :: l =>
        line <- listDirItem q owner di showInode ;;
        isd <- (if recursive then DirItem_IsDir di else Ok false) ;;
        ' (text, todo) <- list_items q owner recursive showInode l ;;
        Ok (line ++ text, if (isd : bool) then di :: todo else todo)
    end.
  Section Todo.
    Variable rec : Z -> Res (list byte).
    (* ls.go:113-116 *)
    Fixpoint list_todo (l : list slice) : Res (list byte) :=
      match l with
      | [] => Ok []
      | di :: l =>
          n <- DirItem_Name di ;;
          loc <- DirItem_Location di ;;
          text <- rec (ObjectID loc) ;;
          rest <- list_todo l ;;
          Ok (n ++ [x3a; newline] ++ text ++ rest)
      end.
  End Todo.
  (* ls.go:97-117; the text written.  Fuel: depth of the recursion *)
  Fixpoint listDirectory (fuel : nat) (q : queries) (owner dirID : Z) (recursive showInode : bool) : Res (list byte) :=
    match fuel with
    | O => Timeout
    | S fuel =>
        _ <- st_end (q_dirItems q owner dirID) ;;
        dis <- sort (map snd (st_items (q_dirItems q owner dirID))) ;;
        ' (text, todo) <- list_items q owner recursive showInode dis ;;
        rest <- list_todo (fun d => listDirectory fuel q owner d true showInode) todo ;;
        Ok (text ++ rest)
    end.

  (** ls.go:147-186, once the index is open; the two texts and the paths warned about.
      [find] is FindDirItemForPath *)
  Variable find : Z -> list byte -> Res (option slice).
  (* ls.go:161-177 *)
  Fixpoint list_args (q : queries) (showInode : bool) (args : list (list byte)) : Res (list byte * list (list byte) * list Z) :=
    match args with
    | [] => Ok ([], [], [])
    | p :: args =>
        let p := Clean p in
        if bytes_eqb p [slash] then
          ' (text, warn, todo) <- list_args q showInode args ;; Ok (text, warn, FirstFreeObjectID :: todo)
        else
          di <- find FSTreeObjectID p ;;
          match di with
          | None => ' (text, warn, todo) <- list_args q showInode args ;; Ok (text, p :: warn, todo)
          | Some di =>
              isd <- DirItem_IsDir di ;;
              if (isd : bool) then
                loc <- DirItem_Location di ;;
                ' (text, warn, todo) <- list_args q showInode args ;; Ok (text, warn, ObjectID loc :: todo)
              else
                line <- listDirItem q FSTreeObjectID di showInode ;;
                ' (text, warn, todo) <- list_args q showInode args ;; Ok (line ++ text, warn, todo)
          end
    end.
  (* ls.go:180-184 *)
  Fixpoint list_dirs (fuel : nat) (q : queries) (recursive showInode : bool) (todo : list Z) : Res (list byte) :=
    match todo with
    | [] => Ok []
    | d :: todo =>
        text <- listDirectory fuel q FSTreeObjectID d recursive showInode ;;
        rest <- list_dirs fuel q recursive showInode todo ;;
        Ok (text ++ rest)
    end.
  Definition doListFiles (fuel : nat) (q : queries) (recursive showInode : bool) (args : list (list byte)) : Res (list byte * list (list byte) * list byte) :=
    let args := match args with [] => [[slash]] | _ => args end in
    ' (text, warn, todo) <- list_args q showInode args ;;
    text2 <- list_dirs fuel q recursive showInode todo ;;
    Ok (text, warn, text2).
End Ls.

(** ** dump-index *)
(* dump_index.go:39-48: state = last owner and the text printed *)
Definition dump_body (r : FullRange) (d : slice) (s : Z * list byte) : Res (Z * list byte) :=
  match f_key r with
  | None => Panic
  | Some k =>
      let '(last, text) := s in
      let o := ik_Owner k in
      let head := if o =? last then [] else str "owner "%string ++ dec o ++ [newline] in
      Ok (o, text ++ head ++ Key_String (ik_Key k) ++ str " @ "%string ++ dec (ik_Generation k) ++ [newline])
  end.
(* dump_index.go:34-49, once the index is open: the text printed *)
Definition doDumpIndex (fuel : nat) (b : bucket) (gen : Z) : Res (list byte) :=
  ' (r, d) <- mkFullRange b gen ;;
  ' (_, text) <- full_loop fuel r d dump_body (max64, []) ;;
  Ok text.

(** text/tabwriter of the Go standard library, as ls (ls.go:156-178, 179-185) and identify
    (internal/identify/identify.go:119-134) use it: tabwriter.NewWriter(os.Stdout, 1, 4, 1, c, 0),
    and the text identify prints.  Writing to standard output is taken to succeed. *)
From Verif Require Export Go Layout ToString Uuid Identify Ls.
From Coq Require Import Strings.String.
From Coq Require Import List.

(** unicode/utf8.RuneCount (standard library), called by tabwriter to measure text: how many bytes the first
    rune has; a byte that does not begin a valid sequence counts as a rune *)
Definition in_span (lo c hi : Z) : bool := (lo <=? c) && (c <=? hi).
Definition conts (lo hi : Z) (n : nat) (r : list byte) : bool :=
  match r with
  | [] => false
  | c :: r => in_span lo (bz c) hi && (n <=? length r)%nat && forallb (fun c => in_span 128 (bz c) 191) (firstn n r)
  end.
Definition rune_size (c : Z) (r : list byte) : nat :=
  if in_span 0xc2 c 0xdf && conts 0x80 0xbf 0 r then 2
  else if (c =? 0xe0) && conts 0xa0 0xbf 1 r then 3
  else if (c =? 0xed) && conts 0x80 0x9f 1 r then 3
  else if in_span 0xe1 c 0xef && negb (c =? 0xed) && conts 0x80 0xbf 1 r then 3
  else if (c =? 0xf0) && conts 0x90 0xbf 2 r then 4
  else if in_span 0xf1 c 0xf3 && conts 0x80 0xbf 2 r then 4
  else if (c =? 0xf4) && conts 0x80 0x8f 2 r then 4
  else 1.
Fixpoint rune_loop (fuel : nat) (l : list byte) : Z :=
  match fuel, l with
  | S fuel, c :: r => 1 + rune_loop fuel (skipn (rune_size (bz c) r) (c :: r))
  | _, _ => 0
  end.
Definition RuneCount (l : list byte) : Z := rune_loop (length l) l.

(** a cell: its bytes and the width counted for it; a line: its cells, is it ended by a newline, and does its
    end make the writer flush (tabwriter.Writer.Write: a form feed, or a line of one cell) *)
Record cell := mkCell { c_text : list byte; c_width : Z }.
Record line := mkLine { l_cells : list cell; l_newline : bool; l_flush : bool }.
(** Write and the first half of Flush: splitting text into cells and lines.  [esc]: inside an escaped text
    (between two bytes 0xff), where nothing is interpreted; [cur]: the bytes of the current cell, [seg]: those
    not measured yet, [w]: the width measured so far; [cells]: of the current line *)
Fixpoint split_text (text : list byte) (esc : bool) (cur seg : list byte) (w : Z) (cells : list cell) : list line :=
  match text with
  | [] => [mkLine (match cur with [] => cells | _ => cells ++ [mkCell cur (if esc then w + RuneCount seg - 2 else w)] end) false false]
  | ch :: r =>
      if esc then
        if beqb ch xff then split_text r false (cur ++ [ch]) [] (w + RuneCount (seg ++ [ch]) - 2) cells
        else split_text r true (cur ++ [ch]) (seg ++ [ch]) w cells
      else if beqb ch x09 || beqb ch x0b then split_text r false [] [] 0 (cells ++ [mkCell cur (w + RuneCount seg)])
      else if beqb ch x0a || beqb ch x0c then
        let cells := cells ++ [mkCell cur (w + RuneCount seg)] in
        mkLine cells true (beqb ch x0c || (length cells =? 1)%nat) :: split_text r false [] [] 0 []
      else if beqb ch xff then split_text r true (cur ++ [ch]) [ch] (w + RuneCount seg) cells
      else split_text r false (cur ++ [ch]) (seg ++ [ch]) w cells
  end.
(** writePadding; [tabs]: the padding character is a tab *)
Definition padding (tabs : bool) (textw cellw : Z) : list byte :=
  if tabs then let cellw := (cellw + 4 - 1) / 4 * 4 in repeat x09 (Z.to_nat ((cellw - textw + 4 - 1) / 4))
  else repeat x20 (Z.to_nat (cellw - textw)).
(** writeLines: a cell is followed by padding if its column has a width *)
Fixpoint write_cells (tabs : bool) (widths : list Z) (cells : list cell) : list byte :=
  match cells with
  | [] => []
  | c :: cells =>
      c_text c ++ match widths with [] => write_cells tabs [] cells | w :: widths => padding tabs (c_width c) w ++ write_cells tabs widths cells end
  end.
Definition write_line (tabs : bool) (widths : list Z) (l : line) : list byte :=
  write_cells tabs widths (l_cells l) ++ (if l_newline l then [x0a] else []).
Definition write_lines (tabs : bool) (widths : list Z) (ls : list line) : list byte := concat (map (write_line tabs widths) ls).
(** does the line have a cell in this column that another one follows?  (format: column < len(line)-1) *)
Definition in_column (column : nat) (l : line) : bool := (S column <? length (l_cells l))%nat.
(** neighbouring lines that are in the column (a column block), or not, together *)
Fixpoint runs (column : nat) (ls : list line) : list (bool * list line) :=
  match ls with
  | [] => []
  | l :: ls =>
      match runs column ls with
      | (b, g) :: t => if Bool.eqb b (in_column column l) then (b, l :: g) :: t else (in_column column l, [l]) :: (b, g) :: t
      | [] => [(in_column column l, [l])]
      end
  end.
(** the width of a column block: minwidth 1, padding 1 *)
Definition block_width (column : nat) (ls : list line) : Z :=
  fold_left (fun width l => match nth_error (l_cells l) column with Some c => if width <? c_width c + 1 then c_width c + 1 else width | None => width end) ls 1.
(** format; fuel: the number of columns *)
Fixpoint format (fuel : nat) (tabs : bool) (widths : list Z) (ls : list line) : Res (list byte) :=
  match fuel with
  | O => Timeout
  | S fuel =>
      (fix blocks (rs : list (bool * list line)) : Res (list byte) :=
        match rs with
        | [] => Ok []
        | (b, g) :: rs =>
            t <- (if b : bool then format fuel tabs (widths ++ [block_width (length widths) g]) g else Ok (write_lines tabs widths g)) ;;
            u <- blocks rs ;; Ok (t ++ u)
        end) (runs (length widths) ls)
  end.
(** the lines between two flushes *)
Fixpoint flushes (ls : list line) : list (list line) :=
  match ls with
  | [] => []
  | l :: ls => if l_flush l then [l] :: flushes ls else match flushes ls with g :: t => (l :: g) :: t | [] => [[l]] end
  end.
Fixpoint format_all (fuel : nat) (tabs : bool) (gs : list (list line)) : Res (list byte) :=
  match gs with
  | [] => Ok []
  | g :: gs => t <- format fuel tabs [] g ;; u <- format_all fuel tabs gs ;; Ok (t ++ u)
  end.
(** everything written to a new writer, then Flush *)
Definition tabwriter (tabs : bool) (text : list byte) : Res (list byte) :=
  format_all (S (length text)) tabs (flushes (split_text text false [] [] 0 [])).

(** what ls prints, ls.go:156-185: the two texts of doListFiles (Ls.v), each through a writer of its own *)
Definition ls_printed (files dirs : list byte) : Res (list byte) :=
  a <- tabwriter false files ;; b <- tabwriter false dirs ;; Ok (a ++ b).
(* internal/identify/identify.go:126-133; [fixed6]: %.6f *)
Definition report_row (fixed6 : spec_float -> list byte) (e : FSEntry) : list byte :=
  Uuid.String (e_FSID e) ++ [x09] ++ dec (e_Count e) ++ [x09] ++ fixed6 (e_Entropy e) ++ [x09] ++ dec (e_BlockSize e) ++ [x0a].
(* internal/identify/identify.go:119-134 *)
Definition report (fixed6 : spec_float -> list byte) (machine : bool) (rows : list FSEntry) : Res (list byte) :=
  tabwriter machine ((if machine then [] else str "fsid"%string ++ [x09] ++ str "count"%string ++ [x09] ++ str "entropy"%string ++ [x09] ++ str "block size"%string ++ [x0a]) ++ concat (map (report_row fixed6) rows)).

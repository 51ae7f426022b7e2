(** Aligned text, for C98 and C99: nothing here is about the program. *)
From Verif Require Import Go.

(** the UTF-8 encoding of a Unicode scalar value (RFC 3629) *)
Definition scalar (c : Z) : Prop := 0 <= c <= 0x10ffff /\ ~ (0xd800 <= c <= 0xdfff).
Definition utf8 (c : Z) : list byte :=
  if c <? 0x80 then [zb c]
  else if c <? 0x800 then [zb (0xc0 + c / 64); zb (0x80 + c mod 64)]
  else if c <? 0x10000 then [zb (0xe0 + c / 4096); zb (0x80 + c / 64 mod 64); zb (0x80 + c mod 64)]
  else [zb (0xf0 + c / 262144); zb (0x80 + c / 4096 mod 64); zb (0x80 + c / 64 mod 64); zb (0x80 + c mod 64)].

(** a field without tab, newline, vertical tab, form feed and the byte 0xff *)
Definition field_ok (f : list byte) : Prop := forall c, In c f -> c <> x09 /\ c <> x0a /\ c <> x0b /\ c <> x0c /\ c <> xff.
(** a row as the program hands it to the printer: fields with a tab in between, newline *)
Fixpoint row_text (row : list (list byte)) : list byte :=
  match row with
  | [] => [x0a]
  | f :: r => match r with [] => f ++ [x0a] | _ => f ++ x09 :: row_text r end
  end.
Section Table.
  (** the width of a text in characters, and what follows a field of width [t] in a column of width [w] *)
  Variables (width : list byte -> Z) (pad : Z -> Z -> list byte).
  (** the widest field of a column *)
  Definition widest (rows : list (list (list byte))) (j : nat) : Z := fold_right Z.max 0 (map (fun r => width (nth j r [])) rows).
  (** a row laid out in columns of the given widths: every field but the last is filled up *)
  Fixpoint laid_out (ws : list Z) (row : list (list byte)) : list byte :=
    match row with
    | [] => [x0a]
    | f :: r => match r with [] => f ++ [x0a] | _ => f ++ pad (width f) (hd 0 ws) ++ laid_out (tl ws) r end
    end.
  (** a table of [n] columns: each column one wider than its widest field *)
  Definition column_widths (n : nat) (rows : list (list (list byte))) : list Z := map (fun j => widest rows j + 1) (seq 0 (n - 1)).
  Definition tabular (n : nat) (rows : list (list (list byte))) : list byte := concat (map (laid_out (column_widths n rows)) rows).
  (** lines of [n] fields and headings (lines of one field): the lines between two headings are a table *)
  Inductive prints (n : nat) : list (list (list byte)) -> list byte -> Prop :=
  | prints_end rows : (forall r, In r rows -> length r = n) -> prints n rows (tabular n rows)
  | prints_heading rows h rest out : (forall r, In r rows -> length r = n) -> prints n rest out ->
      prints n (rows ++ [h] :: rest) (tabular n rows ++ h ++ x0a :: out).
End Table.
(** filling up with spaces, and with tabs whose stops are 4 apart *)
Definition with_spaces (t w : Z) : list byte := repeat x20 (Z.to_nat (w - t)).
Definition with_tabs (t w : Z) : list byte := repeat x09 (Z.to_nat ((w + 3) / 4 - t / 4)).

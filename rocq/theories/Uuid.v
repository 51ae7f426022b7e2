(** pkg/uuid/uuid.go *)
From Verif Require Export Go.

Definition UUIDLen : nat := 16. (* uuid.go:14 *)
Definition uuid : Type := list byte. (* [16]byte *)
(** s[i] of the constant string hexChars, uuid.go:33 *)
Definition hexChars : list byte := [x30;x31;x32;x33;x34;x35;x36;x37;x38;x39;x61;x62;x63;x64;x65;x66].
Definition hexChar (i : Z) : byte := nth (Z.to_nat i) hexChars x00.
Definition dash : byte := x2d.
(* uuid.go:24-30 *)
Definition IsZero (u : uuid) : bool := bytes_eqb u (repeat x00 16).
Definition IsAllFs (u : uuid) : bool := bytes_eqb u (repeat xff 16).
(* uuid.go:32-47: v>>4 and v&0xF; the write position p is the length so far *)
Fixpoint String_loop (i : Z) (u : list byte) : list byte :=
  match u with
  | [] => []
  | v :: r =>
      hexChar (bz v / 16) :: hexChar (bz v mod 16) ::
      (if (i =? 3) || (i =? 5) || (i =? 7) || (i =? 9) then [dash] else []) ++ String_loop (i + 1) r
  end.
Definition String (u : uuid) : list byte := String_loop 0 u.
(** encoding/hex fromHexChar (standard library) *)
Definition fromHexChar (c : byte) : option Z :=
  let x := bz c in
  if (48 <=? x) && (x <=? 57) then Some (x - 48)
  else if (97 <=? x) && (x <=? 102) then Some (x - 97 + 10)
  else if (65 <=? x) && (x <=? 70) then Some (x - 65 + 10)
  else None.
(** encoding/hex DecodeString: error on a bad digit or an odd number of digits
    (Go library, used at uuid.go:50) *)
Fixpoint DecodeString (s : list byte) : option (list byte) :=
  match s with
  | [] => Some []
  | [_] => None
  | a :: b :: r =>
      match fromHexChar a, fromHexChar b, DecodeString r with
      | Some x, Some y, Some t => Some (zb (x * 16 + y) :: t)
      | _, _, _ => None
      end
  end.
(** strings.Replace(value, "-", "", -1), uuid.go:50 *)
Definition remove_dashes (s : list byte) : list byte := filter (fun c => negb (beqb c dash)) s.
(* uuid.go:49-60: the new value of *u, and whether err is nil *)
Definition Set_ (u : uuid) (value : list byte) : uuid * bool :=
  match DecodeString (remove_dashes value) with
  | None => (u, false)
  | Some b => if negb (zlen b =? 16) then (u, false) else (b, true)
  end.
(* uuid.go:64-68 *)
Definition New (value : list byte) : uuid * bool := Set_ (repeat x00 16) value.

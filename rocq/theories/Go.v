(** Go run-time model: outcomes, fixed width integers, slices, byte order.
    Everything here models the Go language / standard library as used by
    /repo; citations say where the construct is used. *)
From Coq Require Export List ZArith Lia Bool.
From Coq Require Export Strings.Byte.
Export ListNotations.
Open Scope Z_scope.

(** ** Outcomes
    [Panic]: a Go run-time panic (slice bounds out of range, nil dereference,
    index out of range, division by zero).  [Timeout]: the explicit fuel of a
    modelled loop ran out; never a normal result. *)
Inductive Res (A : Type) : Type :=
| Ok (a : A)
| Panic
| Timeout.
Arguments Ok {A} a.
Arguments Panic {A}.
Arguments Timeout {A}.

Definition rbind {A B} (m : Res A) (f : A -> Res B) : Res B :=
  match m with Ok a => f a | Panic => Panic | Timeout => Timeout end.
Notation "x <- m ;; k" := (rbind m (fun x => k))
  (at level 100, m at next level, right associativity).
Notation "' p <- m ;; k" := (rbind m (fun x => match x with p => k end))
  (at level 100, p pattern, m at next level, right associativity).

(** ** Fixed width integers: a Go uintN is a [Z] in range; operations that can
    wrap in the code are wrapped explicitly with these. *)
Definition u8 (x : Z) : Z := x mod 2^8.
Definition u16 (x : Z) : Z := x mod 2^16.
Definition u32 (x : Z) : Z := x mod 2^32.
Definition u64 (x : Z) : Z := x mod 2^64.
(** conversion uint64 -> int64 / int (64 bit platforms), two's complement *)
Definition i64 (x : Z) : Z := (x + 2^63) mod 2^64 - 2^63.
Definition is_u8 (x : Z) : Prop := 0 <= x < 2^8.
Definition is_u16 (x : Z) : Prop := 0 <= x < 2^16.
Definition is_u32 (x : Z) : Prop := 0 <= x < 2^32.
Definition is_u64 (x : Z) : Prop := 0 <= x < 2^64.
(** ^uint64(0), used all over pkg/btrfs/index *)
Definition max64 : Z := 2^64 - 1.

(** ** Bytes *)
Definition bz (b : byte) : Z := Z.of_N (Byte.to_N b).
Definition zb (x : Z) : byte :=
  match Byte.of_N (Z.to_N (x mod 256)) with Some b => b | None => x00 end.
Definition beqb (a b : byte) : bool := bz a =? bz b.

(** length of a list as a Go int *)
Definition zlen {A} (l : list A) : Z := Z.of_nat (length l).

(** encoding/binary: LittleEndian.PutUintN / UintN, BigEndian.PutUint64 / Uint64 *)
Fixpoint le_decode (l : list byte) : Z :=
  match l with [] => 0 | b :: r => bz b + 256 * le_decode r end.
Fixpoint le_encode (n : nat) (v : Z) : list byte :=
  match n with O => [] | S n => zb v :: le_encode n (v / 256) end.
Definition be_decode (l : list byte) : Z := le_decode (rev l).
Definition be_encode (n : nat) (v : Z) : list byte := rev (le_encode n v).

(** bytes.Compare: lexicographic *)
Fixpoint bytes_cmp (a b : list byte) : comparison :=
  match a, b with
  | [], [] => Eq
  | [], _ :: _ => Lt
  | _ :: _, [] => Gt
  | x :: a, y :: b =>
      match Z.compare (bz x) (bz y) with Eq => bytes_cmp a b | c => c end
  end.
(** bytes.Equal; also Go string equality *)
Definition bytes_eqb (a b : list byte) : bool :=
  match bytes_cmp a b with Eq => true | _ => false end.
Definition bytes_leb (a b : list byte) : bool :=
  match bytes_cmp a b with Gt => false | _ => true end.
Definition bytes_ltb (a b : list byte) : bool :=
  match bytes_cmp a b with Lt => true | _ => false end.

(** ** Slices
    [s_arr]: the backing array from the slice's first element up to its
    capacity; [s_len]: its length.  Re-slicing is bounded by the capacity. *)
Record slice := mkSlice { s_arr : list byte; s_len : Z }.
Definition slice_wf (s : slice) : Prop := 0 <= s_len s <= zlen (s_arr s).
(** a slice whose capacity equals its length *)
Definition sl (l : list byte) : slice := mkSlice l (zlen l).
(** the bytes of a slice (what range/copy/string(...) see) *)
Definition sbytes (s : slice) : list byte := firstn (Z.to_nat (s_len s)) (s_arr s).
Definition scap (s : slice) : Z := zlen (s_arr s).

(** s[lo:hi] *)
Definition go_slice (s : slice) (lo hi : Z) : Res slice :=
  if (0 <=? lo) && (lo <=? hi) && (hi <=? scap s)
  then Ok (mkSlice (skipn (Z.to_nat lo) (s_arr s)) (hi - lo)) else Panic.
(** s[lo:] *)
Definition go_from (s : slice) (lo : Z) : Res slice := go_slice s lo (s_len s).
(** s[:hi] *)
Definition go_to (s : slice) (hi : Z) : Res slice := go_slice s 0 hi.
(** s[i] *)
Definition go_index (s : slice) (i : Z) : Res Z :=
  if (0 <=? i) && (i <? s_len s)
  then Ok (bz (nth (Z.to_nat i) (s_arr s) x00)) else Panic.

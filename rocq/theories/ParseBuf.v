(** pkg/btrfs/parse_buffer.go.  A method takes the buffer state and returns the
    new state together with its outcome, so that what a panicking call did to the
    state is visible.  [int] overflow of offset + n is not modelled. *)
From Verif Require Export Go.

(* parse_buffer.go:13-19 *)
Record pbuf := mkPbuf { pb_buf : slice; pb_offset : Z }.
Definition M (A : Type) : Type := pbuf -> pbuf * Res A.
Definition mret {A} (a : A) : M A := fun b => (b, Ok a).
Definition mbind {A B} (m : M A) (f : A -> M B) : M B :=
  fun b => match m b with (b', Ok a) => f a b' | (b', Panic) => (b', Panic) | (b', Timeout) => (b', Timeout) end.
(* parse_buffer.go:21-23 *)
Definition NewParseBuffer (buf : slice) : pbuf := mkPbuf buf 0.
(* parse_buffer.go:41-43, 27-29 *)
Definition SetOffset (o : Z) : M unit := fun b => (mkPbuf (pb_buf b) o, Ok tt).
(* parse_buffer.go:25-27 *)
Definition Rewind : M unit := SetOffset 0.
(* parse_buffer.go:29-31, 33-35, 37-39, 45-47 *)
Definition PLen (b : pbuf) : Z := s_len (pb_buf b).
Definition PCap (b : pbuf) : Z := scap (pb_buf b).
Definition POffset (b : pbuf) : Z := pb_offset b.
Definition Unread (b : pbuf) : Z := PLen b - pb_offset b.
(* parse_buffer.go:52-56: the slice expression is evaluated first *)
Definition Next (n : Z) : M slice := fun b =>
  match go_slice (pb_buf b) (pb_offset b) (pb_offset b + n) with
  | Ok d => (mkPbuf (pb_buf b) (pb_offset b + n), Ok d)
  | Panic => (b, Panic)
  | Timeout => (b, Timeout)
  end.
(** b.ByteOrder.UintN(b.Next(n)), parse_buffer.go:63, 67, 71 *)
Definition next_le (n : Z) : M Z := mbind (Next n) (fun d => mret (le_decode (sbytes d))).
(* parse_buffer.go:58-72 *)
Definition NextUint8 : M Z := mbind (Next 1) (fun d b => (b, go_index d 0)).
Definition NextUint16 : M Z := next_le 2.
Definition NextUint32 : M Z := next_le 4.
Definition NextUint64 : M Z := next_le 8.
(* parse_buffer.go:74-76: seconds and nanoseconds given to time.Unix *)
Definition NextTime : M (Z * Z) := mbind NextUint64 (fun s => mbind NextUint32 (fun n => mret (i64 s, n))).

(** The part of go.etcd.io/bbolt used by pkg/btrfs/index (external library,
    trusted model).  A bucket is its list of key/value pairs in key order;
    a cursor is a position in that list, represented by the entries before it
    (nearest first) and the entries from it on. *)
From Verif Require Export Go.

(* a key and a value in the bucket "index" (index_store.go:132-133, 206) *)
Definition entry : Type := list byte * list byte.
Definition bucket : Type := list entry.

(** well formed: keys strictly ascending in byte order *)
Definition klt (a b : list byte) : Prop := bytes_cmp a b = Lt.
Fixpoint sorted (b : bucket) : Prop :=
  match b with
  | [] => True
  | e :: r => (match r with [] => True | e' :: _ => klt (fst e) (fst e') end) /\ sorted r
  end.

(** Bucket.Get (index_store.go:142, 179): the value, or nil *)
Fixpoint get (b : bucket) (k : list byte) : option (list byte) :=
  match b with
  | [] => None
  | (k', v) :: r => if bytes_eqb k' k then Some v else get r k
  end.
(** Bucket.Put (index_store.go:148, 222): insert or replace *)
Fixpoint put (b : bucket) (k v : list byte) : bucket :=
  match b with
  | [] => [(k, v)]
  | (k', v') :: r =>
      match bytes_cmp k k' with
      | Lt => (k, v) :: (k', v') :: r
      | Eq => (k, v) :: r
      | Gt => (k', v') :: put r k v
      end
  end.
(** Cursor.Seek (index_store.go:271, 294, 309, 312): to the first key >= k; [snd] = [] means Seek returned nil *)
Fixpoint seek_from (before : bucket) (b : bucket) (k : list byte) : bucket * bucket :=
  match b with
  | [] => (before, [])
  | e :: r => if bytes_ltb (fst e) k then seek_from (e :: before) r k else (before, b)
  end.
Definition seek (b : bucket) (k : list byte) : bucket * bucket := seek_from [] b k.
(** what Seek returns; Next (index_store.go:278, 376) and Prev (299) after a Seek that found something *)
Definition cur_entry (c : bucket * bucket) : option entry :=
  match snd c with [] => None | e :: _ => Some e end.
Definition cur_next (c : bucket * bucket) : bucket * bucket :=
  match snd c with [] => c | e :: r => (e :: fst c, r) end.
Definition prev_entry (c : bucket * bucket) : option entry :=
  match fst c with [] => None | e :: _ => Some e end.

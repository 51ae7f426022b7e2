(** pkg/btrfs/index/index_store.go: NameHash, and the part of Go's hash/crc32 it
    uses (table-driven CRC, reflected polynomial).  32-bit words are [N]. *)
From Verif Require Export Go.
From Coq Require Export NArith.

(* hash/crc32: Castagnoli = 0x82f63b78 (standard library) *)
Definition castagnoli : N := 0x82f63b78%N.
Definition ones32 : N := 0xffffffff%N.
(** ^x on uint32 *)
Definition not32 (x : N) : N := N.lxor x ones32.
(* hash/crc32/crc32_generic.go simplePopulateTable: one table entry *)
Definition crc_shift (poly c : N) : N :=
  if N.eqb (N.land c 1) 1 then N.lxor (N.shiftr c 1) poly else N.shiftr c 1.
Definition crc_entry (poly i : N) : N := Nat.iter 8 (crc_shift poly) i.
Definition crc_table (poly : N) : list N := map (fun i => crc_entry poly (N.of_nat i)) (seq 0 256).
(* hash/crc32/crc32_generic.go simpleUpdate: crc = ^crc; for v in p:
   crc = tab[byte(crc)^v] ^ (crc >> 8); return ^crc.  Slicing-by-8 and the
   SSE4.2 variants compute the same function (trusted). *)
Definition crc_byte (tab : list N) (crc : N) (v : byte) : N :=
  N.lxor (nth (N.to_nat (N.lxor (N.land crc 0xff) (Byte.to_N v))) tab 0%N) (N.shiftr crc 8).
Definition crc_update (crc : N) (tab : list N) (p : list byte) : N :=
  not32 (fold_left (crc_byte tab) p (not32 crc)).
(* index_store.go:572-578 *)
Definition NameHash (name : list byte) : Z :=
  Z.of_N (not32 (crc_update (not32 0xFFFFFFFE) (crc_table castagnoli) name)).

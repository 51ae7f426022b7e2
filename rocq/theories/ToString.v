(** pkg/btrfs/to_string.go: printing ids, key types and keys.  The tables are the
    switch statements, case by case (a Go switch has no duplicate constants). *)
From Verif Require Export Go Layout.
From Coq Require Import Strings.String.

(** a Go string constant *)
Definition str (s : string) : list byte := list_byte_of_string s.
Open Scope string_scope.
(* to_string.go:12-63 *)
Definition object_names : list (Z * list byte) :=
  [(1, str "ROOT_TREE");
   (2, str "EXTENT_TREE");
   (3, str "CHUNK_TREE");
   (4, str "DEV_TREE");
   (5, str "FS_TREE");
   (6, str "ROOT_TREE_DIR");
   (7, str "CSUM_TREE");
   (8, str "QUOTA_TREE");
   (9, str "UUID");
   (10, str "FREES_SPACE_TREE");
   (0, str "DEV_STATS");
   (2^64 - 4, str "BALANCE");
   (2^64 - 5, str "ORPHAN");
   (2^64 - 6, str "TREE_LOG");
   (2^64 - 7, str "TREE_LOG_FIXUP");
   (2^64 - 8, str "TREE_RELOC");
   (2^64 - 9, str "DATA_RELOC_TREE");
   (2^64 - 10, str "EXTENT_CSUM");
   (2^64 - 11, str "FREE_SPACE");
   (2^64 - 12, str "FREE_INO");
   (2^64 - 255, str "MULTIPLE");
   (256, str "FIRST_FREE");
   (2^64 - 256, str "LAST_FREE")].
(* to_string.go:65-144 *)
Definition type_names : list (Z * list byte) :=
  [(1, str "INODE_ITEM");
   (12, str "INODE_REF");
   (13, str "INODE_EXTREF");
   (24, str "XATTR_ITEM");
   (48, str "ORPHAN_ITEM");
   (60, str "DIR_LOG_ITEM");
   (72, str "DIR_LOG_INDEX");
   (84, str "DIR_ITEM");
   (96, str "DIR_INDEX");
   (108, str "EXTENT_DATA");
   (128, str "EXTENT_CSUM");
   (132, str "ROOT_ITEM");
   (144, str "ROOT_BACKREF");
   (156, str "ROOT_REF");
   (168, str "EXTENT_ITEM");
   (169, str "METADATA_ITEM");
   (176, str "TREE_BLOCK_REF");
   (178, str "EXTENT_DATA_REF");
   (180, str "EXTENT_REF_V0");
   (182, str "SHARED_BLOCK_REF");
   (184, str "SHARED_DATA_REF");
   (192, str "BLOCK_GROUP_ITEM");
   (198, str "FREE_SPACE_INFO");
   (199, str "FREE_SPACE_EXTENT");
   (200, str "FREE_SPACE_BITMAP");
   (204, str "DEV_EXTENT");
   (216, str "DEV_ITEM");
   (228, str "CHUNK_ITEM");
   (240, str "QGROUP_STATUS");
   (242, str "QGROUP_INFO");
   (246, str "QGROUP_RELATION");
   (248, str "TEMPORARY_ITEM");
   (249, str "PERSISTENT_ITEM");
   (250, str "DEV_REPLACE");
   (251, str "UUID_SUBVOL");
   (252, str "UUID_RECEIVED_SUBVOL");
   (253, str "STRING_ITEM")].
Close Scope string_scope.
(** fmt.Sprint / %d of an unsigned integer below 10^20: decimal digits
    (Go library, used at to_string.go:62,143,146-150) *)
Definition digit_char (d : Z) : byte := zb (48 + d).
Fixpoint dec_loop (fuel : nat) (n : Z) (acc : list byte) : list byte :=
  match fuel with
  | O => acc
  | S fuel => if n <? 10 then digit_char n :: acc else dec_loop fuel (n / 10) (digit_char (n mod 10) :: acc)
  end.
Definition dec (n : Z) : list byte := dec_loop 20 n [].
(** %d of an int64 *)
Definition dec_signed (n : Z) : list byte := if n <? 0 then x2d :: dec (- n) else dec n.
(* the switch statements of to_string.go:13-62 and 66-143: first matching case, else the default *)
Fixpoint switch (t : list (Z * list byte)) (x : Z) : list byte :=
  match t with
  | [] => dec x
  | (c, s) :: r => if x =? c then s else switch r x
  end.
(* to_string.go:12-63 *)
Definition ObjectIDString (id : Z) : list byte := switch object_names id.
(* to_string.go:65-144 *)
Definition KeyTypeString (t : Z) : list byte := switch type_names t.
(* to_string.go:146-150 *)
Definition Key_String (k : Key) : list byte :=
  str "key (" ++ ObjectIDString (ObjectID k) ++ [x20] ++ KeyTypeString (KType k) ++ [x20] ++ dec_signed (i64 (KOffset k)) ++ str ")".

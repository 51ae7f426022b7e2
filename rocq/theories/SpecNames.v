(** Specification: the item types and reserved object ids of btrfs and their names (linux/btrfs_tree.h:
    BTRFS_<name>_KEY and BTRFS_<name>_OBJECTID), independent of the program's own constants. *)
From Coq Require Import ZArith List Strings.String.
Import ListNotations.
Local Open Scope Z_scope. Local Open Scope string_scope.
Definition btrfs_item_types : list (string * Z) :=
  [("INODE_ITEM", 0x01); ("INODE_REF", 0x0c); ("INODE_EXTREF", 0x0d); ("XATTR_ITEM", 0x18); ("ORPHAN_ITEM", 0x30);
   ("DIR_LOG_ITEM", 0x3c); ("DIR_LOG_INDEX", 0x48); ("DIR_ITEM", 0x54); ("DIR_INDEX", 0x60); ("EXTENT_DATA", 0x6c);
   ("EXTENT_CSUM", 0x80); ("ROOT_ITEM", 0x84); ("ROOT_BACKREF", 0x90); ("ROOT_REF", 0x9c); ("EXTENT_ITEM", 0xa8);
   ("METADATA_ITEM", 0xa9); ("TREE_BLOCK_REF", 0xb0); ("EXTENT_DATA_REF", 0xb2); ("EXTENT_REF_V0", 0xb4);
   ("SHARED_BLOCK_REF", 0xb6); ("SHARED_DATA_REF", 0xb8); ("BLOCK_GROUP_ITEM", 0xc0); ("FREE_SPACE_INFO", 0xc6);
   ("FREE_SPACE_EXTENT", 0xc7); ("FREE_SPACE_BITMAP", 0xc8); ("DEV_EXTENT", 0xcc); ("DEV_ITEM", 0xd8);
   ("CHUNK_ITEM", 0xe4); ("QGROUP_STATUS", 0xf0); ("QGROUP_INFO", 0xf2); ("QGROUP_LIMIT", 0xf4); ("QGROUP_RELATION", 0xf6);
   ("TEMPORARY_ITEM", 0xf8); ("PERSISTENT_ITEM", 0xf9); ("DEV_REPLACE", 0xfa); ("UUID_SUBVOL", 0xfb);
   ("UUID_RECEIVED_SUBVOL", 0xfc); ("STRING_ITEM", 0xfd)].
(** a negative number stands for its value as an unsigned 64 bit number, as in the header *)
Definition btrfs_objects : list (string * Z) :=
  [("ROOT_TREE", 1); ("EXTENT_TREE", 2); ("CHUNK_TREE", 3); ("DEV_TREE", 4); ("FS_TREE", 5); ("ROOT_TREE_DIR", 6);
   ("CSUM_TREE", 7); ("QUOTA_TREE", 8); ("UUID_TREE", 9); ("FREE_SPACE_TREE", 10); ("DEV_STATS", 0); ("BALANCE", -4); ("ORPHAN", -5);
   ("TREE_LOG", -6); ("TREE_LOG_FIXUP", -7); ("TREE_RELOC", -8); ("DATA_RELOC_TREE", -9); ("EXTENT_CSUM", -10);
   ("FREE_SPACE", -11); ("FREE_INO", -12); ("MULTIPLE", -255); ("FIRST_FREE", 256); ("LAST_FREE", -256)].

(** pkg/btrfs/index/key_format.go, KeyCompare (btrfs.go), KF/KL (index_store.go).
    An index key is its byte string. *)
From Verif Require Export Go Layout.

(* key_format.go:46-53 (V2) and 21-28 (V1, same offsets) *)
Definition keyV2Owner : Z := 0.
Definition keyV2Type : Z := keyV2Owner + 8.
Definition keyV2ObjectID : Z := keyV2Type + 1.
Definition keyV2Offset : Z := keyV2ObjectID + 8.
Definition keyV2Generation : Z := keyV2Offset + 8.
Definition keyV2End : Z := keyV2Generation + 8.

(* key_format.go:55-63.  The Go code fills a zeroed [33]byte at the five
   offsets above; the regions are adjacent, so the result is the concatenation. *)
Definition newIndexKey (owner : Z) (k : Key) (generation : Z) : list byte :=
  be_encode 8 owner ++ [zb (KType k)] ++ be_encode 8 (ObjectID k) ++
  be_encode 8 (KOffset k) ++ be_encode 8 generation.

(* key_format.go:69-76; binary.BigEndian.Uint64(ik[off:]) and ik[off].
   Simplification: stated on byte strings of at least 33 bytes (all keys in the
   bucket); a shorter key would make the Go code panic. *)
Definition sub_bytes (off n : Z) (l : list byte) : list byte :=
  firstn (Z.to_nat n) (skipn (Z.to_nat off) l).
Definition ik_Owner (ik : list byte) : Z := be_decode (sub_bytes keyV2Owner 8 ik).
Definition ik_Type (ik : list byte) : Z := bz (nth (Z.to_nat keyV2Type) ik x00).
Definition ik_ObjectID (ik : list byte) : Z := be_decode (sub_bytes keyV2ObjectID 8 ik).
Definition ik_Offset (ik : list byte) : Z := be_decode (sub_bytes keyV2Offset 8 ik).
Definition ik_Generation (ik : list byte) : Z := be_decode (sub_bytes keyV2Generation 8 ik).
Definition ik_Key (ik : list byte) : Key := mkKey (ik_ObjectID ik) (ik_Type ik) (ik_Offset ik).

(* key_format.go:30-37: V1 accessors (the offsets, lines 21-28, are the same numbers) *)
Definition keyV1Owner : Z := 0.
Definition keyV1Type : Z := keyV1Owner + 8.
Definition keyV1ObjectID : Z := keyV1Type + 1.
Definition keyV1Offset : Z := keyV1ObjectID + 8.
Definition keyV1Generation : Z := keyV1Offset + 8.
Definition v1_Owner (ik : list byte) : Z := be_decode (sub_bytes keyV1Owner 8 ik).
Definition v1_Type (ik : list byte) : Z := bz (nth (Z.to_nat keyV1Type) ik x00).
Definition v1_ObjectID (ik : list byte) : Z := be_decode (sub_bytes keyV1ObjectID 8 ik).
Definition v1_Offset (ik : list byte) : Z := be_decode (sub_bytes keyV1Offset 8 ik).
Definition v1_Generation (ik : list byte) : Z := be_decode (sub_bytes keyV1Generation 8 ik).
Definition v1_Key (ik : list byte) : Key := mkKey (v1_ObjectID ik) (v1_Type ik) (v1_Offset ik).
(* key_format.go:65-67 *)
Definition NewIndexKeyFromV1 (ik : list byte) : list byte :=
  newIndexKey (v1_Owner ik) (v1_Key ik) (v1_Generation ik).

(* btrfs.go:284-301 *)
Definition KeyCompare (a b : Key) : Z :=
  let r := KType a - KType b in
  if negb (r =? 0) then r
  else if ObjectID a <? ObjectID b then -1
  else if ObjectID b <? ObjectID a then 1
  else if KOffset a <? KOffset b then -1
  else if KOffset b <? KOffset a then 1
  else 0.

(* index_store.go:541-555: args are uint64; uint8(args[0]) truncates *)
Definition keyFirst (k : Key) (args : list Z) : Res Key :=
  match args with
  | [] => Ok k
  | [t] => Ok (mkKey (ObjectID k) (u8 t) (KOffset k))
  | [t; i] => Ok (mkKey i (u8 t) (KOffset k))
  | [t; i; o] => Ok (mkKey i (u8 t) o)
  | _ => Panic
  end.
(* index_store.go:557-563 *)
Definition KF (args : list Z) : Res Key := keyFirst (mkKey 0 0 0) args.
(* index_store.go:565-570 *)
Definition KL (args : list Z) : Res Key := keyFirst (mkKey LastFreeObjectID 255 max64) args.
(** the fixed-arity calls used inside the package (type given as a uint8) *)
Definition KF1 (t : Z) : Key := mkKey 0 (u8 t) 0.
Definition KF2 (t i : Z) : Key := mkKey i (u8 t) 0.
Definition KF3 (t i o : Z) : Key := mkKey i (u8 t) o.
Definition KL0 : Key := mkKey LastFreeObjectID 255 max64.
Definition KL2 (t i : Z) : Key := mkKey i (u8 t) max64.
(* index_store.go:26-29 *)
Definition metadataKey : list byte := newIndexKey max64 KL0 max64.

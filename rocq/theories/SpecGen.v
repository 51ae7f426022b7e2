(** Specification: what the index shows of an image whose blocks are of different generations (the
    blocks of a tree are rewritten one by one, so this is the normal case).  The program reads the items of
    one object in key order, starting with the newest version of the first, and goes on as long as there is
    a version of the next item of that same generation. *)
From Verif Require Import Go Layout SpecLayout KeyFmt Session IoUtil Fs Recover SpecStore SpecDisk.

(** the item of tree [o] with key [k] as of generation [g]; of several copies the last one on the image *)
Definition version (is : list insertion) (o : Z) (k : Key) (g : Z) : option insertion :=
  fold_left (fun x i => if (i_owner i =? o) && same_keyb (i_key i) k && (i_gen i =? g) then Some i else x) is None.
Fixpoint same_generation (is : list insertion) (o g : Z) (l : list insertion) : list insertion :=
  match l with
  | [] => []
  | i :: l => match version is o (i_key i) g with Some j => j :: same_generation is o g l | None => [] end
  end.
(** [l]: the newest versions of all the items in question, in key order *)
Definition seen_of (is : list insertion) (o : Z) (l : list insertion) : list insertion :=
  match l with [] => [] | i :: _ => same_generation is o (i_gen i) l end.
Definition seen_group (is : list insertion) (o t id : Z) : list insertion := seen_of is o (group is o t id).
(** root items of subvolumes: only if there is subvolume 256 *)
Definition seen_subvols (is : list insertion) : list insertion :=
  match subvols is with i :: _ => if ObjectID (i_key i) =? 256 then seen_of is 1 (subvols is) else [] | [] => [] end.
(** the answers; single items are always found in their newest version *)
Definition seen (is : list insertion) (cs : list (Z * d_chunk)) : queries :=
  mkQueries (fun o d => mkStream (map row (seen_group is o 84 d)) (Ok tt))
    (fun o i => Ok (item_data (item_at is o (mkKey i 1 0))))
    (fun o i => mkStream (map row (seen_group is o 108 i)) (Ok tt))
    (fun o i => Ok (item_data (item_at is o (mkKey i 108 0))))
    (mapped cs) (mkStream (map row (seen_subvols is)) (Ok tt)).
Definition seen_chunks (is : list insertion) (cs : list (Z * d_chunk)) : Prop :=
  Forall2 chunk_item (seen_group is 3 228 256) cs /\ disjoint cs.
(** [orderly] of SpecDisk.v without its conditions on generations and on subvolume 256 *)
Definition separated (is : list insertion) : Prop :=
  (forall i loc, In i is -> KType (i_key i) = 84 -> DirItem_Location (sl (i_data i)) = Ok loc -> ObjectID loc < 2^64 - 1) /\
  (forall i, In i is -> i_gen i < 2^64 - 1 /\ KType (i_key i) < 255) /\
  (forall o t id, (t = 84 \/ t = 108 \/ t = 228) -> group is o t id <> [] -> separate is o (mkKey id t (2^64 - 1))) /\
  (subvols is <> [] -> separate is 1 (mkKey (2^64 - 256) 132 (2^64 - 1))).

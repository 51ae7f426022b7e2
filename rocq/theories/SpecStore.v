(** Specification vocabulary for index queries (C16-C23): what the stored
    entries are and which version of an FS key a query should see.  Only the
    encoding of a key (see C01, C02) is used from the model. *)
From Verif Require Import Go KeyFmt KeyProofs Bolt StoreProofs.
From Coq Require Import Sorted.

(** an index as left by a successful open: entries in key order under 33 byte
    keys, and the metadata record *)
Definition opened (b : bucket) : Prop := wf_bucket b /\ exists m, In (metadataKey, m) b.
(** FS key order: type, object id, offset *)
Definition key_lt (x y : Key) : Prop :=
  KType x < KType y \/ (KType x = KType y /\
  (ObjectID x < ObjectID y \/ (ObjectID x = ObjectID y /\ KOffset x < KOffset y))).
Definition key_le (x y : Key) : Prop := x = y \/ key_lt x y.
(** owner [o] has some version of [k] *)
Definition present (b : bucket) (o : Z) (k : Key) : Prop :=
  wf_Key k /\ exists g v, is_u64 g /\ stored b o k g v.
(** the version with the greatest generation *)
Definition latest (b : bucket) (o : Z) (k : Key) (g : Z) (v : list byte) : Prop :=
  stored b o k g v /\ is_u64 g /\ forall g' v', is_u64 g' -> stored b o k g' v' -> g' <= g.
(** what the documentation of FindItem promises: the latest generation <= gen,
    or the earliest if all are later *)
Definition documented_version (b : bucket) (o : Z) (k : Key) (gen g : Z) (v : list byte) : Prop :=
  stored b o k g v /\ is_u64 g /\
  ((g <= gen /\ forall g' v', is_u64 g' -> stored b o k g' v' -> g' <= gen -> g' <= g) \/
   (gen < g /\ forall g' v', is_u64 g' -> stored b o k g' v' -> g <= g')).
(** what the code selects: the earliest generation >= gen, or the latest if all
    are earlier *)
Definition selected_version (b : bucket) (o : Z) (k : Key) (gen g : Z) (v : list byte) : Prop :=
  stored b o k g v /\ is_u64 g /\
  ((gen <= g /\ forall g' v', is_u64 g' -> stored b o k g' v' -> gen <= g' -> g <= g') \/
   (g < gen /\ forall g' v', is_u64 g' -> stored b o k g' v' -> g' <= g)).
(** [ks] is the ascending list of all FS keys of owner [o] from [lo] to [hi] *)
Definition keys_between (b : bucket) (o : Z) (lo hi : Key) (ks : list Key) : Prop :=
  StronglySorted key_lt ks /\ forall k, In k ks <-> present b o k /\ key_le lo k /\ key_le k hi.

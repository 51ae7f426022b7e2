(** Specification: what the metadata items found on an image say, as a table of
    answers to the questions recover asks.  [is] is the list of items of the image in
    the order of their blocks (see C37); nothing of the index or its queries is used. *)
From Verif Require Import Go Layout SpecLayout KeyFmt Session IoUtil Fs Recover SpecStore.

(** key order (type, object id, offset) *)
Definition key_ltb (x y : Key) : bool :=
  (KType x <? KType y) || ((KType x =? KType y) && ((ObjectID x <? ObjectID y) || ((ObjectID x =? ObjectID y) && (KOffset x <? KOffset y)))).
Definition same_keyb (x y : Key) : bool := (KType x =? KType y) && (ObjectID x =? ObjectID y) && (KOffset x =? KOffset y).
(** add an item to a list in key order; of two items with the same key the one of
    the later generation stays, of two copies of one generation the one that comes later on the image *)
Fixpoint put_item (i : insertion) (l : list insertion) : list insertion :=
  match l with
  | [] => [i]
  | j :: r => if key_ltb (i_key i) (i_key j) then i :: j :: r
              else if same_keyb (i_key i) (i_key j) then (if i_gen i <? i_gen j then j :: r else i :: r)
              else j :: put_item i r
  end.
(** the newest version of every item of tree [o], in key order *)
Definition tree_items (is : list insertion) (o : Z) : list insertion :=
  fold_left (fun l i => put_item i l) (filter (fun i => i_owner i =? o) is) [].
(** those of one type and object id *)
Definition group (is : list insertion) (o t id : Z) : list insertion :=
  filter (fun i => (KType (i_key i) =? t) && (ObjectID (i_key i) =? id)) (tree_items is o).
(** the root items of subvolumes *)
Definition subvols (is : list insertion) : list insertion :=
  filter (fun i => (KType (i_key i) =? 132) && (256 <=? ObjectID (i_key i)) && (ObjectID (i_key i) <=? 2^64 - 256)) (tree_items is 1).
(** the item of tree [o] with key [k] *)
Definition item_at (is : list insertion) (o : Z) (k : Key) : option insertion :=
  List.find (fun i => same_keyb (i_key i) k) (tree_items is o).
(** an item as a loop over items sees it: its key with owner and generation, its data *)
Definition row (i : insertion) : list byte * slice := (newIndexKey (i_owner i) (i_key i) (i_gen i), sl (i_data i)).
Definition item_data (x : option insertion) : option slice := option_map (fun i => sl (i_data i)) x.
(** the chunk that contains logical address [l], given as (start, chunk) *)
Definition chunk_of (cs : list (Z * d_chunk)) (l : Z) : option (Z * d_chunk) :=
  List.find (fun x => (fst x <=? l) && (l <? fst x + ch_length (snd x))) cs.
(** device id and address on the device, from the first stripe *)
Definition mapped (cs : list (Z * d_chunk)) (l : Z) : Res (Z * Z) :=
  match chunk_of cs l with
  | Some (f, c) => match ch_stripes c with s :: _ => Ok (st_devid s, st_offset s + (l - f)) | [] => Panic end
  | None => Panic
  end.
(** the answers *)
Definition table (is : list insertion) (cs : list (Z * d_chunk)) : queries :=
  mkQueries (fun o d => mkStream (map row (group is o 84 d)) (Ok tt))
    (fun o i => Ok (item_data (item_at is o (mkKey i 1 0))))
    (fun o i => mkStream (map row (group is o 108 i)) (Ok tt))
    (fun o i => Ok (item_data (item_at is o (mkKey i 108 0))))
    (mapped cs) (mkStream (map row (subvols is)) (Ok tt)).
(** the chunk items of the image: [cs] are the decoded chunks, in order, disjoint,
    with addresses below 2^64 *)
Definition chunk_item (i : insertion) (x : Z * d_chunk) : Prop :=
  fst x = KOffset (i_key i) /\ carries (sl (i_data i)) (chunk_fields (snd x)) /\ zlen (ser (chunk_fields (snd x))) < 65536 /\
  match ch_stripes (snd x) with s :: _ => 0 <= st_offset s /\ st_offset s + fst x + ch_length (snd x) <= 2^64 | [] => False end.
Fixpoint disjoint (cs : list (Z * d_chunk)) : Prop :=
  match cs with [] => True | x :: r => (forall y, In y r -> fst x + ch_length (snd x) <= fst y) /\ disjoint r end.
Definition chunks_are (is : list insertion) (cs : list (Z * d_chunk)) : Prop :=
  Forall2 chunk_item (group is 3 228 256) cs /\ disjoint cs.

(** ** when the index can answer (see C17, C19, C20, C22 for why it cannot always) *)
(** the newest versions of these items are of one generation *)
Definition one_generation (l : list insertion) : Prop := forall i j, In i l -> In j l -> i_gen i = i_gen j.
(** tree [o] has an item behind [last], or the first item of the next tree has a key
    that tree [o] does not have *)
Definition separate (is : list insertion) (o : Z) (last : Key) : Prop :=
  (exists i, In i is /\ i_owner i = o /\ key_lt last (i_key i)) \/
  (forall j, In j is -> o < i_owner j ->
     (forall e, In e is -> o < i_owner e -> i_owner j < i_owner e \/ (i_owner j = i_owner e /\ key_le (i_key j) (i_key e))) ->
     forall i, In i is -> i_owner i = o -> i_key i <> i_key j).
Definition orderly (is : list insertion) : Prop :=
  (* no directory item leads to object id 2^64 - 1 *)
  (forall i loc, In i is -> KType (i_key i) = 84 -> DirItem_Location (sl (i_data i)) = Ok loc -> ObjectID loc < 2^64 - 1) /\
  (* generations and key types are in the range btrfs uses *)
  (forall i, In i is -> i_gen i < 2^64 - 1 /\ KType (i_key i) < 255) /\
  (* directory and file extent items, chunk items *)
  (forall o t id, (t = 84 \/ t = 108 \/ t = 228) -> group is o t id <> [] ->
     one_generation (group is o t id) /\ separate is o (mkKey id t (2^64 - 1))) /\
  (* root items: if there are subvolumes, there is subvolume 256 *)
  (subvols is <> [] -> one_generation (subvols is) /\ separate is 1 (mkKey (2^64 - 256) 132 (2^64 - 1)) /\
     exists i, In i (subvols is) /\ ObjectID (i_key i) = 256).

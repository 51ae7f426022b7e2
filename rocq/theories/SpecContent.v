(** Specification of file content: extents over a device image. *)
From Verif Require Import Go Layout KeyFmt IoUtil Fs Recover.
(** one extent of a file: inline bytes, a hole, or [n] bytes at [src] of the device *)
Inductive extent := Inline (off : Z) (data : list byte) | Hole (off n : Z) | Disk (off n src : Z).
Definition ext_off (x : extent) : Z := match x with Inline o _ | Hole o _ | Disk o _ _ => o end.
Definition ext_len (x : extent) : Z := match x with Inline _ d => zlen d | Hole _ n | Disk _ n _ => n end.
Definition covers (x : extent) (i : Z) : bool := (ext_off x <=? i) && (i <? ext_off x + ext_len x).
(** byte [i] of a string, zero past its end *)
Definition byte_at (s : list byte) (i : Z) : byte := nth (Z.to_nat i) s x00.
Definition ext_byte (D : list byte) (x : extent) (i : Z) : byte :=
  match x with
  | Inline o d => byte_at d (i - o)
  | Hole _ _ => x00
  | Disk o _ src => byte_at D (src + (i - o))
  end.
(** byte [i] of the file: the last extent that covers it decides; zero if none does *)
Definition file_byte (D : list byte) (xs : list extent) (i : Z) : byte :=
  match List.find (fun x => covers x i) (rev xs) with Some x => ext_byte D x i | None => x00 end.
(** the extent an item of the index stands for; Physical gives the device position
    of the start of the extent on disk *)
Definition is_extent (q : queries) (ke : list byte * slice) (x : extent) : Prop :=
  let '(k, e) := ke in let off := KOffset (ik_Key k) in
  (exists d, FileExtentItem_Type e = Ok 0 /\ FileExtentItem_Data e = Ok d /\ x = Inline off d) \/
  (exists t n, FileExtentItem_Type e = Ok t /\ t <> 0 /\ FileExtentItem_NumBytes e = Ok n /\ FileExtentItem_DiskByteNr e = Ok 0 /\ x = Hole off n) \/
  (exists t n nr id phys o, FileExtentItem_Type e = Ok t /\ t <> 0 /\ FileExtentItem_NumBytes e = Ok n /\ FileExtentItem_DiskByteNr e = Ok nr /\ nr <> 0 /\
     q_physical q nr = Ok (id, phys) /\ FileExtentItem_Offset e = Ok o /\ x = Disk off n ((phys + o) mod 2^64)).
(** a reader of device [D] that may fail at any time but never invents data: what it
    delivers is on the device, and everything asked for if no error is reported *)
Definition reads_from (D : list byte) (dev : readerAt) : Prop := forall n off,
  let '(d, err) := dev n off in
  (off < 0 -> err = Some EOther) /\
  (0 <= off -> 0 <= n -> zlen d <= n /\ d = firstn (length d) (skipn (Z.to_nat off) D) /\ (err = None -> zlen d = n)).
(** reads of the device that fail with anything but io.EOF *)
Definition read_ok (e : event) : Prop := match e with EvRead _ _ _ (Some EOther) => False | _ => True end.
(** a device that has no faults within its size *)
Definition good_device (D : list byte) (dev : readerAt) : Prop :=
  reads_from D dev /\ forall n off, 0 <= off -> 0 <= n -> off + n <= zlen D -> snd (dev n off) = None.
(** every read within these [n] bytes at [a] works *)
Definition readable (dev : readerAt) (a n : Z) : Prop := forall k b, a <= b -> 0 <= k -> b + k <= a + n -> snd (dev k b) = None.
Definition ext_readable (dev : readerAt) (x : extent) : Prop := match x with Disk _ n src => readable dev src n | _ => True end.
(** an extent that can be restored: below the largest file offset, on the device *)
Definition usable (D : list byte) (x : extent) : Prop :=
  ext_off x + ext_len x < 2^63 /\
  match x with
  | Inline _ _ => True
  | Hole _ n => n <= 2^48
  | Disk _ n src => src + n <= zlen D
  end.
Definition no_faults (E : env) : Prop := forall n k, e_faults E n k = FNone.
(** the stored target of a symbolic link *)
Definition is_target (q : queries) (D : list byte) (e : slice) (t : list byte) : Prop :=
  (FileExtentItem_Type e = Ok 0 /\ FileExtentItem_Data e = Ok t) \/
  (exists ty n nr id phys o, FileExtentItem_Type e = Ok ty /\ ty <> 0 /\ FileExtentItem_NumBytes e = Ok n /\ FileExtentItem_DiskByteNr e = Ok nr /\ nr <> 0 /\
     q_physical q nr = Ok (id, phys) /\ FileExtentItem_Offset e = Ok o /\
     zlen t = n /\ t = firstn (Z.to_nat n) (skipn (Z.to_nat ((phys + o) mod 2^64)) D)).
(** the bytes of the target can be read, if they are on the device *)
Definition target_readable (q : queries) (dev : readerAt) (e : slice) : Prop := forall ty n nr id phys o,
  FileExtentItem_Type e = Ok ty -> ty <> 0 -> FileExtentItem_NumBytes e = Ok n -> FileExtentItem_DiskByteNr e = Ok nr -> q_physical q nr = Ok (id, phys) -> FileExtentItem_Offset e = Ok o ->
  readable dev ((phys + o) mod 2^64) n.

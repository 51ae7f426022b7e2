(** internal/identify: collecting filesystem ids, and the identify command.
    float64 is IEEE binary64, computed with Coq.Floats.SpecFloat (round to
    nearest even); math.Log2 is a parameter. *)
From Verif Require Export Go Layout IoUtil.
From Coq Require Export Floats.SpecFloat Permutation.

(** ** float64 *)
Definition f64_of_Z (z : Z) : spec_float := binary_normalize 53 1024 z 0 false.
Definition f64_add := SFadd 53 1024.
Definition f64_mul := SFmul 53 1024.
Definition f64_div := SFdiv 53 1024.
(** uint32(f): truncation towards zero; amd64 converts to int64 and takes the low
    32 bits (the language leaves values out of range open) *)
Definition f64_to_u32 (f : spec_float) : Z :=
  match f with
  | S754_finite s m e =>
      let t := if 0 <=? e then Zpos m * 2^e else Zpos m / 2^(-e) in u32 (if s then - t else t)
  | _ => 0
  end.

(** ** collector.go *)
(* collector.go:41-44 *)
Record histEntry := mkHist { Count : Z; BlockSizeSum : Z }.
(** a Go map from ids to entries: an association list with distinct keys *)
Definition hist : Type := list (list byte * histEntry).
Fixpoint map_get (h : hist) (k : list byte) : option histEntry :=
  match h with
  | [] => None
  | (k', v) :: r => if bytes_eqb k' k then Some v else map_get r k
  end.
Fixpoint map_set (h : hist) (k : list byte) (v : histEntry) : hist :=
  match h with
  | [] => [(k, v)]
  | (k', v') :: r => if bytes_eqb k' k then (k, v) :: r else (k', v') :: map_set r k v
  end.
(* collector.go:50-78; uuid.go:24-30 *)
Definition CollectBlock (block : slice) (h : hist) : Res hist :=
  leaf <- Header_IsLeaf block ;;
  if negb leaf then Ok h
  else fsid <- Header_FSID block ;;
       if bytes_eqb fsid (repeat x00 16) || bytes_eqb fsid (repeat xff 16) then Ok h
       else match map_get h fsid with
            | None => Ok (map_set h fsid (mkHist 1 0))
            | Some e =>
                n <- Header_NrItems block ;;
                if 0 <? n then
                  it <- go_from block HeaderLen ;;
                  off <- Item_Offset it ;;
                  Ok (map_set h fsid (mkHist (u64 (Count e + 1)) (u64 (BlockSizeSum e + off))))
                else Ok (map_set h fsid (mkHist (u64 (Count e + 1)) (BlockSizeSum e)))
            end.
(* the calls of internal/identify/identify.go:107-111, without the reads *)
Fixpoint CollectBlocks (blocks : list slice) (h : hist) : Res hist :=
  match blocks with
  | [] => Ok h
  | b :: r => h' <- CollectBlock b h ;; CollectBlocks r h'
  end.

(** ** entropy.go:12-27, in float64.  [cs]: the values of the histogram in the
    order in which the map p is iterated; [l] = len(b). *)
Fixpoint entropy_sum (log2 : spec_float -> spec_float) (l : spec_float) (cs : list Z) (e : spec_float) : spec_float :=
  match cs with
  | [] => e
  | c :: r => let v := f64_div (f64_of_Z c) l in entropy_sum log2 l r (f64_add e (f64_mul v (log2 v)))
  end.
Definition ShannonEntropy_f64 (log2 : spec_float -> spec_float) (l : Z) (cs : list Z) : spec_float :=
  SFopp (entropy_sum log2 (f64_of_Z l) cs (S754_zero false)).

(** the values of the map p after the loop entropy.go:13-16: how often each
    occurring byte occurs, in some fixed order *)
Definition byte_counts (b : list byte) : list Z :=
  map (fun x => zlen (filter (beqb x) b)) (nodup Byte.byte_eq_dec b).
(** [v] is a result of entropy.go:12-27 for [b]: the counts are added up in the
    order of a map iteration, which Go leaves open *)
Definition ShannonEntropy_result (log2 : spec_float -> spec_float) (b : list byte) (v : spec_float) : Prop :=
  exists cs, Permutation cs (byte_counts b) /\ v = ShannonEntropy_f64 log2 (zlen b) cs.

(* collector.go:17-22 *)
Record FSEntry := mkEntry { e_FSID : list byte; e_Count : Z; e_Entropy : spec_float; e_BlockSize : Z }.
(* collector.go:86-89 *)
Definition guess (e : histEntry) : Z :=
  let f := f64_add (f64_div (f64_of_Z (BlockSizeSum e)) (f64_of_Z (Count e))) (f64_of_Z 4096) in
  f64_to_u32 f / 4096 * 4096.
(* collector.go:26-37 *)
Definition entry_less (a b : FSEntry) : bool :=
  if negb (e_Count a =? e_Count b) then e_Count a <? e_Count b
  else if negb (SFeqb (e_Entropy a) (e_Entropy b)) then SFltb (e_Entropy a) (e_Entropy b)
  else bytes_ltb (e_FSID a) (e_FSID b).
(* sort.Sort(sort.Reverse(occ)): modelled by insertion sort (the result of a
   comparison sort under a strict total order is unique, see PropsIdentify) *)
Section Sort.
  Context {A : Type} (less : A -> A -> bool).
  Fixpoint ins_sorted (x : A) (l : list A) : list A :=
    match l with
    | [] => [x]
    | y :: r => if less y x then y :: ins_sorted x r else x :: l
    end.
  Definition sort_by (l : list A) : list A := fold_right ins_sorted [] l.
End Sort.
(* collector.go:80-96.  [order]: the map entries in the order the map is iterated;
   [ent id]: the entropy value computed for [id] in this run *)
Definition Entries (ent : list byte -> spec_float) (minOccurrence : Z) (order : hist) : list FSEntry :=
  let occ := map (fun p => mkEntry (fst p) (Count (snd p)) (ent (fst p)) (guess (snd p)))
               (filter (fun p => minOccurrence <=? Count (snd p)) order) in
  sort_by (fun a b => entry_less b a) occ.

(** ** identify.go *)
(** a Go map[uint64]bool used as a set: its keys, each once *)
Definition set_add (x : Z) (s : list Z) : list Z := if existsb (Z.eqb x) s then s else x :: s.
(* internal/identify/identify.go:33-36 (two positions per round), 38-40 and 43-45 (one) *)
Fixpoint add_vicinity (f : Z -> Z) (n : nat) (i : Z) (s : list Z) : list Z :=
  match n with O => s | S n => add_vicinity f n (i + 1) (set_add (f i) s) end.
Fixpoint add_vicinity2 (f g : Z -> Z) (n : nat) (i : Z) (s : list Z) : list Z :=
  match n with O => s | S n => add_vicinity2 f g n (i + 1) (set_add (g i) (set_add (f i) s)) end.
(* internal/identify/identify.go:32-47 *)
Definition fixed_samples (devSize blockSize : Z) : list Z :=
  let s := add_vicinity2 (fun i => u64 (SuperInfoOffset + u64 (i * blockSize)))
             (fun i => u64 (SuperInfoOffset2 + u64 ((i + 100) * blockSize))) 100 0 [] in
  if SuperInfoOffset3 <=? devSize then
    let s := add_vicinity (fun i => u64 (SuperInfoOffset3 + u64 ((i + 200) * blockSize))) 100 0 s in
    if SuperInfoOffset4 <=? devSize
    then add_vicinity (fun i => u64 (SuperInfoOffset3 + u64 ((i + 300) * blockSize))) 100 0 s
    else s
  else s.
(* internal/identify/identify.go:48-51.  [rnd k]: the k-th value returned by rand.Int63n(numBlocks),
   between 0 and numBlocks-1; Int63n panics unless numBlocks > 0 *)
Fixpoint random_samples (fuel : nat) (rnd : nat -> Z) (k : nat) (blockSize numSamples : Z) (s : list Z) : Res (list Z) :=
  if zlen s <? numSamples then
    match fuel with
    | O => Timeout
    | S fuel => random_samples fuel rnd (S k) blockSize numSamples (set_add (u64 (rnd k * blockSize)) s)
    end
  else Ok s.
(* internal/identify/identify.go:31-61.  samples[i] = o panics if the set is larger than numSamples;
   division by a zero block size panics.  Fuel: draws from the random source. *)
Definition MakeSampleOffsets (fuel : nat) (rnd : nat -> Z) (devSize blockSize numSamples : Z) : Res (list Z) :=
  let s := fixed_samples devSize blockSize in
  if blockSize =? 0 then Panic
  else if (zlen s <? numSamples) && (i64 (devSize / blockSize) <=? 0) then Panic
  else s <- random_samples fuel rnd 0 blockSize numSamples s ;;
       if numSamples <? zlen s then Panic
       else Ok (sort_by Z.ltb s).
(* internal/identify/identify.go:107-111 *)
Fixpoint sample_loop (r : readerAt) (buf : list byte) (samples : list Z) (h : hist) : Res (option hist) :=
  match samples with
  | [] => Ok (Some h)
  | o :: rest =>
      let '(buf, err) := ReadBlockAt r buf o in
      match err with
      | Some _ => Ok None (* cliutil.ReportError: exit status 1 *)
      | None => h' <- CollectBlock (sl buf) h ;; sample_loop r buf rest h'
      end
  end.
(* internal/identify/identify.go:71-135.  [wish]: uint(SampleFraction * float64(devSize/bs)), see
   Fraction.v.  None: the command reports an error and exits.  The report is the
   list of entries; for its printing see Tabwriter.v. *)
Definition IdentifyFS (fuel : nat) (rnd : nat -> Z) (ent : list byte -> spec_float) (seek : Z * bool) (r : readerAt)
    (bs wish minBlocks maxBlocks minOccurrence : Z) (order : hist -> hist) : Res (option (list FSEntry)) :=
  let '(devSize, ok) := CheckDeviceSize seek bs in
  if negb ok then Ok None
  else if bs =? 0 then Panic
  else
    let numSamples := if wish <? minBlocks then minBlocks else if maxBlocks <? wish then maxBlocks else wish in
    samples <- MakeSampleOffsets fuel rnd devSize bs numSamples ;;
    h <- sample_loop r (repeat x00 (Z.to_nat bs)) samples [] ;;
    match h with None => Ok None | Some h => Ok (Some (Entries ent minOccurrence (order h))) end.

(** What commands print besides their results: cliutil.Verbosef and the output of Physical. *)
From Verif Require Import Go GoProofs Layout KeyFmt Bolt Store ToString Ls Uuid Identify Tabwriter.
From Coq Require Import Strings.String.
From Coq Require Import List.
Import ListNotations.

(* cmd/btrfscue/app/util/cliutil.go:34-38: to standard output, if --verbose is given *)
Definition Verbosef (verbose : bool) (text : list byte) : list byte := if verbose then text else [].
(* internal/identify/identify.go:88-92 *)
Definition numSamples (wish minb maxb : Z) : Z := if wish <? minb then minb else if maxb <? wish then maxb else wish.
(* internal/identify/identify.go:94: "sampling %d blocks...\n" *)
Definition sampling_line (n : Z) : list byte := str "sampling "%string ++ dec n ++ str " blocks..."%string ++ [x0a].
(* internal/identify/identify.go:94-134: standard output of an identify that ends well; the progress bar goes to standard
   error and is left out *)
Definition identify_stdout (fixed6 : spec_float -> list byte) (verbose machine : bool) (wish minb maxb : Z) (rows : list FSEntry) : Res (list byte) :=
  r <- report fixed6 machine rows ;; Ok (Verbosef verbose (sampling_line (numSamples wish minb maxb)) ++ r).
(* internal/identify/identify.go:115-118: to standard error *)
Definition identify_warning (mino : Z) (rows : list FSEntry) : list byte :=
  match rows with
  | [] => str "btrfscue: no filesystem id occured more than "%string ++ dec mino ++ str " times, check --min-occurrence"%string ++ [x0a]
  | _ => []
  end.

(* pkg/btrfs/index/index_store.go:477: "stripe: %d => %d @ %d\n" *)
Definition stripe_line (logical offset gen : Z) : list byte :=
  str "stripe: "%string ++ dec logical ++ str " => "%string ++ dec offset ++ str " @ "%string ++ dec gen ++ [x0a].
(* index_store.go:468-477 (stripe_body of Store.v) with the output of 477 *)
Definition stripe_print (r : Range) (c : slice) (s : list stripeMapEntry * list byte) : Res ((list stripeMapEntry * list byte) * bool) :=
  let '(m, p) := s in
  n <- Chunk_NumStripes c ;;
  if n =? 0 then Ok ((m, p), false)
  else
    s <- Chunk_Stripe c 0 ;;
    match r_key r with
    | None => Panic
    | Some k => d <- Stripe_DevID s ;; o <- Stripe_Offset s ;;
        Ok ((m ++ [mkStripe (KOffset (ik_Key k)) d o], p ++ stripe_line (KOffset (ik_Key k)) o (ik_Generation k)), false)
    end.
(* index_store.go:464-495 (Physical of Store.v): cache, result, and what the call prints *)
Definition Physical_says (fuel : nat) (b : bucket) (gen : Z) (cache : option (list stripeMapEntry)) (logical : Z) :
  Res (list stripeMapEntry * (Z * Z) * list byte) :=
  ' (m, p) <- (match cache with Some m => Ok (m, []) | None => range_for fuel b (Chunks b gen) stripe_print ([], []) end) ;;
  a <- Physical_in m logical ;; Ok (m, a, p).
(** one call after the other on one Index, index_store.go:464-495: the results and what was printed *)
Fixpoint Physical_calls (fuel : nat) (b : bucket) (gen : Z) (cache : option (list stripeMapEntry)) (l : list Z) : Res (list (Z * Z) * list byte) :=
  match l with
  | [] => Ok ([], [])
  | a :: l =>
      ' (m, r, p) <- Physical_says fuel b gen cache a ;;
      ' (rs, q) <- Physical_calls fuel b gen (Some m) l ;; Ok (r :: rs, p ++ q)
  end.

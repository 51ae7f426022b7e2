(** The number of samples for a --sample-fraction (internal/identify/identify.go:87). *)
From Verif Require Import Go Identify.

(** uint(f) of a float64, for values that an uint can hold after cutting off the fraction; the language leaves the
    others (negative, too big, infinite, not a number) open: they are [other f] here *)
Definition f64_to_u64 (other : spec_float -> Z) (f : spec_float) : Z :=
  match f with
  | S754_zero _ => 0
  | S754_finite s m e =>
      let t := if 0 <=? e then Zpos m * 2^e else Zpos m / 2^(-e) in
      if ((s : bool) && negb (t =? 0)) || (2^64 <=? t) then other f else t
  | _ => other f
  end.
(* identify.go:87: uint(options.SampleFraction * float64(devSize/bs)).  devSize/bs panics for bs = 0, see IdentifyFS *)
Definition sampleWish (other : spec_float -> Z) (fraction : spec_float) (devSize bs : Z) : Z :=
  f64_to_u64 other (f64_mul fraction (f64_of_Z (devSize / bs))).

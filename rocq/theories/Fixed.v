(** The verb %.6f of package fmt, with which identify prints an entropy (internal/identify/identify.go:131-132);
    fmt.fmtFloat and strconv's bigFtoa (Go 1.18): the exact decimal expansion of the float64, rounded to six places,
    to the even digit if it is half way, with as many digits before the point as it takes. *)
From Verif Require Import Go ToString Identify.
From Coq Require Import Strings.String.

(** num / den to the nearest integer, to the even one of two *)
Definition round_even (num den : Z) : Z :=
  let q := num / den in let r := num mod den in
  if 2 * r <? den then q else if den <? 2 * r then q + 1 else if Z.even q then q else q + 1.
(** the digits of a number of any size a float64 can have: less than 10^309 *)
Definition digits (n : Z) : list byte := dec_loop 310 n [].
Definition six (n : Z) : list byte := repeat x30 (6 - List.length (digits n)) ++ digits n.
Definition minus (s : bool) : list byte := if s then [x2d] else [].
(* fmt/format.go fmtFloat: the sign of an infinity is always printed *)
Definition fixed6 (f : spec_float) : list byte :=
  match f with
  | S754_nan => str "NaN"%string
  | S754_infinity s => (if s : bool then [x2d] else [x2b]) ++ str "Inf"%string
  | S754_zero s => minus s ++ str "0.000000"%string
  | S754_finite s m e =>
      let n := if 0 <=? e then Zpos m * 2^e * 1000000 else round_even (Zpos m * 1000000) (2^(-e)) in
      minus s ++ digits (n / 1000000) ++ x2e :: six (n mod 1000000)
  end.

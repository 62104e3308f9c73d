(** Single precision numbers as 32-bit patterns, their conversions, and the arithmetic of doubles the DXB reader uses. Definitions only. *)
From Coq Require Import NArith ZArith Bool.
From Verif Require Import Base F64Model.
Open Scope Z_scope.

(** IEEE-754 binary32 fields. *)
Definition is_f32 (b : N) : bool := (b <? 2 ^ 32)%N.
Definition f32_neg (b : N) : bool := (2 ^ 31 <=? b)%N.
Definition f32_abs_bits (b : N) : Z := Z.of_N b mod 2 ^ 31.
Definition f32_exp (b : N) : Z := f32_abs_bits b / 2 ^ 23.
Definition f32_frac (b : N) : Z := f32_abs_bits b mod 2 ^ 23.
Definition f32_finite (b : N) : bool := f32_exp b <? 255.
(** Magnitude of a finite number is [f32_m b * 2 ^ f32_e b]. *)
Definition f32_m (b : N) : Z := if f32_exp b =? 0 then f32_frac b else f32_frac b + 2 ^ 23.
Definition f32_e (b : N) : Z := if f32_exp b =? 0 then -149 else f32_exp b - 150.
Definition f32_num (b : N) : Z := f32_m b * 2 ^ Z.max 0 (f32_e b).
Definition f32_den (b : N) : Z := 2 ^ Z.max 0 (- f32_e b).
Definition sign32 (neg : bool) : N := if neg then (2 ^ 31)%N else 0%N.
Definition inf32 : Z := 255 * 2 ^ 23.

(** The single nearest to [n / d], ties to even, overflow to infinity. *)
Definition f32_of_rat (neg : bool) (n d : Z) : N :=
  let mag :=
    if n =? 0 then 0
    else
      let e := Z.max (-149) (log2_rat n d - 23) in
      let q := round_half_even (n * 2 ^ Z.max 0 (- e)) (d * 2 ^ Z.max 0 e) in
      Z.min ((e + 149) * 2 ^ 23 + q) inf32 in
  (sign32 neg + Z.to_N mag)%N.

(** Rust [d as f32] (src/dxb_writer.rs:213). The payload of a NaN is not specified by Rust; here its upper part is kept and it is made quiet, as
    x86-64 and AArch64 do. *)
Definition f32_of_f64 (b : N) : N :=
  if f64_finite b then f32_of_rat (f64_neg b) (f64_num b) (f64_den b)
  else if f64_frac b =? 0 then (sign32 (f64_neg b) + Z.to_N inf32)%N
  else (sign32 (f64_neg b) + Z.to_N (inf32 + Z.lor (f64_frac b / 2 ^ 29) (2 ^ 22)))%N.
(** Rust [f64::from(f32)] (src/dxb_reader.rs:281, 295, 304); NaN likewise. *)
Definition f64_of_f32 (b : N) : N :=
  if f32_finite b then f64_of_rat (f32_neg b) (f32_num b) (f32_den b)
  else if f32_frac b =? 0 then (sign_bit (f32_neg b) + Z.to_N inf_bits)%N
  else (sign_bit (f32_neg b) + Z.to_N (inf_bits + Z.lor (f32_frac b) (2 ^ 22) * 2 ^ 29))%N.

(** Rust [f64 * f64]. Simplification: every NaN that comes out is the same one. *)
Definition f64_is_nan (b : N) : bool := negb (f64_finite b) && negb (f64_frac b =? 0).
Definition f64_mul (a b : N) : N :=
  let neg := xorb (f64_neg a) (f64_neg b) in
  if f64_is_nan a || f64_is_nan b then Z.to_N nan_bits
  else if f64_finite a && f64_finite b then f64_of_rat neg (f64_num a * f64_num b) (f64_den a * f64_den b)
  else if (f64_abs_bits a =? 0) || (f64_abs_bits b =? 0) then Z.to_N nan_bits
  else (sign_bit neg + Z.to_N inf_bits)%N.
(** Rust [f64 / 1_000_000.0] (src/dxb_reader.rs:279). *)
Definition f64_millionth (b : N) : N :=
  if f64_is_nan b then Z.to_N nan_bits
  else if f64_finite b then f64_of_rat (f64_neg b) (f64_num b) (f64_den b * 10 ^ 6)
  else b.

(** Doubles as 64-bit patterns, their text form and its parser. Definitions only. *)
From Coq Require Import Ascii String NArith ZArith Bool List.
From Verif Require Import Base TextModel.
Import ListNotations.
Open Scope Z_scope.

(** IEEE-754 binary64 fields. *)
Definition is_f64 (b : N) : bool := (b <? 2 ^ 64)%N.
Definition f64_neg (b : N) : bool := (2 ^ 63 <=? b)%N.
Definition f64_abs_bits (b : N) : Z := Z.of_N b mod 2 ^ 63.
Definition f64_exp (b : N) : Z := f64_abs_bits b / 2 ^ 52.
Definition f64_frac (b : N) : Z := f64_abs_bits b mod 2 ^ 52.
Definition f64_finite (b : N) : bool := f64_exp b <? 2047.
(** Magnitude of a finite double is [f64_m b * 2 ^ f64_e b]. *)
Definition f64_m (b : N) : Z := if f64_exp b =? 0 then f64_frac b else f64_frac b + 2 ^ 52.
Definition f64_e (b : N) : Z := if f64_exp b =? 0 then -1074 else f64_exp b - 1075.
(** The same magnitude as a fraction of integers. *)
Definition f64_num (b : N) : Z := f64_m b * 2 ^ Z.max 0 (f64_e b).
Definition f64_den (b : N) : Z := 2 ^ Z.max 0 (- f64_e b).

Definition sign_bit (neg : bool) : N := if neg then (2 ^ 63)%N else 0%N.
Definition inf_bits : Z := 2047 * 2 ^ 52.
Definition nan_bits : Z := 2047 * 2 ^ 52 + 2 ^ 51.

(** Rounding a fraction to the nearest integer, ties to even. *)
Definition round_half_even (n d : Z) : Z :=
  let q := n / d in
  let r := n mod d in
  if 2 * r <? d then q
  else if d <? 2 * r then q + 1
  else if Z.even q then q else q + 1.

(** Floor of the binary logarithm of [n / d]. *)
Definition log2_rat (n d : Z) : Z :=
  let k := Z.log2 n - Z.log2 d in
  if d * 2 ^ Z.max 0 k <=? n * 2 ^ Z.max 0 (- k) then k else k - 1.

(** std [f64::from_str] is correctly rounded: the double nearest to [n / d], ties to even, overflow to
    infinity. *)
Definition f64_of_rat (neg : bool) (n d : Z) : N :=
  let mag :=
    if n =? 0 then 0
    else
      let e := Z.max (-1074) (log2_rat n d - 52) in
      let q := round_half_even (n * 2 ^ Z.max 0 (- e)) (d * 2 ^ Z.max 0 e) in
      Z.min ((e + 1074) * 2 ^ 52 + q) inf_bits in
  (sign_bit neg + Z.to_N mag)%N.

(** [x] rounded to a multiple of 10^-12, as the integer numerator ([{:.12}], std::fmt is exact with ties
    to even). *)
Definition f64_scaled (b : N) : Z := round_half_even (f64_num b * 10 ^ 12) (f64_den b).

(** src/code_pair_value.rs:238 [format!("{:.12}", val)]. *)
Definition format_12 (b : N) : rstring :=
  if f64_finite b then
    (if f64_neg b then [45%N] else []) ++
    show_dec (Z.to_N (f64_scaled b / 10 ^ 12)) ++ [46%N] ++
    zero_pad 12 (show_dec (Z.to_N (f64_scaled b mod 10 ^ 12)))
  else if f64_frac b =? 0 then (if f64_neg b then str "-inf" else str "inf")
  else str "NaN".

(** src/code_pair_value.rs:241-243: pop while the last character is '0'; on the reversed string. *)
Fixpoint drop_zeros (s : rstring) : rstring :=
  match s with
  | c :: s' => if (c =? 48)%N then drop_zeros s' else s
  | [] => []
  end.
(** src/code_pair_value.rs:236-251 [format_f64]. *)
Definition format_f64 (b : N) : rstring :=
  let v := rev (drop_zeros (rev (format_12 b))) in
  match rev v with
  | c :: _ => if (c =? 46)%N then v ++ [48%N] else v
  | [] => v
  end.

(** * Parsing (std [f64::from_str]) *)

(** Longest prefix of decimal digits. *)
Fixpoint span_digits (s : rstring) : list N * rstring :=
  match s with
  | c :: s' => match dec_value c with
               | Some d => let '(ds, r) := span_digits s' in (d :: ds, r)
               | None => ([], s)
               end
  | [] => ([], [])
  end.

Definition horner (acc : N) (ds : list N) : N := fold_left (fun a d => (a * 10 + d)%N) ds acc.

(** Optional sign. *)
Definition take_sign (s : rstring) : bool * rstring :=
  match s with
  | c :: t => if (c =? 45)%N then (true, t) else if (c =? 43)%N then (false, t) else (false, s)
  | [] => (false, [])
  end.

Definition to_lower (c : char) : char := if ((65 <=? c) && (c <=? 90))%N then (c + 32)%N else c.

(** Exponent part: nothing, or e/E, optional sign and at least one digit. *)
Definition parse_exponent (s : rstring) : option Z :=
  match s with
  | [] => Some 0
  | c :: t =>
      if ((c =? 101) || (c =? 69))%N then
        let '(neg, u) := take_sign t in
        match span_digits u with
        | (d :: ds, []) => let v := Z.of_N (horner 0 (d :: ds)) in Some (if neg then - v else v)
        | _ => None
        end
      else None
  end.

(** [Some bits], or [None] for a [ParseFloatError]. *)
Definition f64_from_str (s : rstring) : option N :=
  let '(neg, t) := take_sign s in
  let low := map to_lower t in
  if seqb low (str "inf") || seqb low (str "infinity") then Some (sign_bit neg + Z.to_N inf_bits)%N
  else if seqb low (str "nan") then Some (sign_bit neg + Z.to_N nan_bits)%N
  else
    let '(ip, r1) := span_digits t in
    let '(fp, r2) := match r1 with
                     | c :: r => if (c =? 46)%N then span_digits r else ([], r1)
                     | [] => ([], [])
                     end in
    match ip ++ fp with
    | [] => None
    | ds =>
        match parse_exponent r2 with
        | Some ex =>
            let k := ex - Z.of_nat (length fp) in
            Some (f64_of_rat neg (Z.of_N (horner 0 ds) * 10 ^ Z.max 0 k) (10 ^ Z.max 0 (- k)))
        | None => None
        end
    end.

(** src/helper_functions.rs:237-242 [parse_f64]. *)
Definition parse_f64 (s : rstring) (offset : N) : res N :=
  match f64_from_str (trim s) with
  | Some d => Ok d
  | None => Err (ParseFloatError offset)
  end.

(** Rust [f64 as i16]: toward zero, saturating, NaN is 0. *)
Definition f64_to_int_sat (lo hi : Z) (b : N) : Z :=
  if f64_finite b then
    let t := f64_num b / f64_den b in
    let v := if f64_neg b then - t else t in
    Z.max lo (Z.min hi v)
  else if f64_frac b =? 0 then (if f64_neg b then lo else hi)
  else 0.
Definition f64_as_i16 (b : N) : Z := f64_to_int_sat (-32768) 32767 b.

(** src/helper_functions.rs:274-279 [parse_i16]. *)
Definition parse_i16 (s : rstring) (offset : N) : res Z :=
  match f64_from_str (trim s) with
  | Some d => Ok (f64_as_i16 d)
  | None => Err (ParseFloatError offset)
  end.

(** Rust [i as f64] for an integer of small magnitude is exact. *)
Definition f64_of_Z (z : Z) : N := f64_of_rat (z <? 0) (Z.abs z) 1.

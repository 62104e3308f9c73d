(** Dates and durations stored as doubles. A date is the number of seconds after 1900-01-01T00:00:00 (possibly
    negative); time zones are not modelled (both [Local] and [Utc] are taken as UTC). Definitions only. *)
From Verif Require Export Base F64Model.
Open Scope Z_scope.

(** * The double operations used, correctly rounded (Rust [f64] is IEEE 754 binary64, round to nearest even). *)
Definition f64_nan (a : N) : bool := negb (f64_finite a) && negb (f64_frac a =? 0).
Definition f64_snum (a : N) : Z := if f64_neg a then - f64_num a else f64_num a.
(** The double nearest to the fraction [n / d], [d > 0]; [neg0] is the sign of an exact zero. *)
Definition f64_of_srat (neg0 : bool) (n d : Z) : N :=
  if n =? 0 then sign_bit neg0 else f64_of_rat (n <? 0) (Z.abs n) d.
Definition f64_nan_result : N := Z.to_N nan_bits.
Definition f64_inf (neg : bool) : N := (sign_bit neg + Z.to_N inf_bits)%N.
Definition f64_add (a b : N) : N :=
  if f64_nan a || f64_nan b then f64_nan_result
  else if f64_finite a && f64_finite b then
    f64_of_srat (f64_neg a && f64_neg b) (f64_snum a * f64_den b + f64_snum b * f64_den a) (f64_den a * f64_den b)
  else if f64_finite a then b
  else if f64_finite b then a
  else if Bool.eqb (f64_neg a) (f64_neg b) then a else f64_nan_result.
(** Negation flips the sign bit. *)
Definition f64_opp (a : N) : N := if f64_neg a then (a - 2 ^ 63)%N else (a + 2 ^ 63)%N.
Definition f64_sub (a b : N) : N := f64_add a (f64_opp b).
(** Multiplication and division by a positive integer constant. *)
Definition f64_mul_const (a : N) (k : Z) : N :=
  if f64_finite a then f64_of_srat (f64_neg a) (f64_snum a * k) (f64_den a) else a.
Definition f64_div_const (a : N) (k : Z) : N :=
  if f64_finite a then f64_of_srat (f64_neg a) (f64_snum a) (f64_den a * k) else a.

(** * chrono *)
(** i64 arithmetic panics on overflow in a debug build. *)
Definition checked_i64 (z : Z) : res Z := if is_i64 z then Ok z else Err Panic.
(** [ChronoDuration::seconds] (chrono 0.4) panics unless the milliseconds fit an i64. *)
Definition chrono_seconds (z : Z) : res Z := if Z.abs z <=? 9223372036854775 then Ok z else Err Panic.
(** 262142-12-31T23:59:59, the last second of chrono's [DateTime]; sums beyond it panic. *)
Definition max_date : Z := 8212475865599.
Definition chrono_add (epoch_offset : Z) : res Z := if epoch_offset <=? max_date then Ok epoch_offset else Err Panic.

(** src/helper_functions.rs:33-40 [f64_to_adjusted_duration]. *)
Definition f64_to_adjusted_duration (f : N) : res Z :=
  let days_since_dublin := f64_sub f (f64_of_Z 2415020) in
  let seconds := f64_mul_const days_since_dublin 86400 in
  let? a := checked_i64 (f64_to_int_sat (-9223372036854775808) 9223372036854775807 seconds - 86400) in
  let? b := checked_i64 (a + 1) in
  chrono_seconds b.
(** src/helper_functions.rs:50-66 [as_datetime]. *)
Definition as_datetime (date : N) : res Z :=
  let? duration :=
    if f64_abs_bits date =? 0 then Ok 0
    else let? d := f64_to_adjusted_duration date in Ok (if 0 <? d then d else 0) in
  chrono_add duration.
(** src/helper_functions.rs:97-104 [as_double]; a date is the whole number of seconds [num_seconds] gives. *)
Definition as_double (date : Z) : N :=
  f64_add (f64_div_const (f64_div_const (f64_div_const (f64_of_Z date) 24) 60) 60) (f64_of_Z 2415021).
(** src/helper_functions.rs:124-126 [duration_as_double], 128-130 [as_duration]; a duration is its seconds, u64. *)
Definition duration_as_double (secs : Z) : N := f64_of_Z secs.
Definition as_duration (d : N) : Z := f64_to_int_sat 0 18446744073709551615 d.

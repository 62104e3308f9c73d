(** Specification vocabulary: single precision. *)
From Coq Require Import NArith ZArith QArith Qabs.
From Verif Require Import Base F64Spec.
Open Scope Z_scope.

(** The finite numbers of IEEE 754 binary32: 24-bit integers times powers of two. *)
Definition single (x : Q) : Prop := exists m e, Z.abs m < 2 ^ 24 /\ -149 <= e <= 104 /\ (x == inject_Z m * (2 # 1) ^ e)%Q.
(** [y] is [x] rounded to single precision. *)
Definition nearest_single (x y : N) : Prop :=
  finite_double y /\ single (double_value y) /\ negative y = negative x /\
  forall q, single q -> (Qabs (double_value y - double_value x) <= Qabs (q - double_value x))%Q.
Definition not_a_number (b : N) : Prop := (b < 2 ^ 64)%N /\ biased_exponent b = 2047 /\ fraction_field b <> 0.
Definition infinity (neg : bool) : N := if neg then 0xFFF0000000000000 else 0x7FF0000000000000.
(** From here on numbers round to infinity: half a unit above the largest single. *)
Definition single_limit : Q := inject_Z (2 ^ 128 - 2 ^ 103).
Definition in_single (x y : N) : Prop :=
  (finite_double x -> (Qabs (double_value x) < single_limit)%Q -> nearest_single x y) /\
  (finite_double x -> (single_limit <= Qabs (double_value x))%Q -> y = infinity (negative x)) /\
  (x = infinity (negative x) -> y = x) /\
  (not_a_number x -> not_a_number y).

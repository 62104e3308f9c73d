(** Specification vocabulary for doubles: the rational number a bit pattern denotes (IEEE 754-2019, 3.4). *)
From Coq Require Import NArith ZArith QArith Qabs Qround.
From Verif Require Import Base.
Open Scope Z_scope.

Definition biased_exponent (b : N) : Z := (Z.of_N b / 2 ^ 52) mod 2048.
Definition fraction_field (b : N) : Z := Z.of_N b mod 2 ^ 52.
Definition negative (b : N) : bool := N.testbit b 63.

(** A 64-bit pattern that is neither an infinity nor a NaN. *)
Definition finite_double (b : N) : Prop := (b < 2 ^ 64)%N /\ biased_exponent b <> 2047.

Definition magnitude (b : N) : Q :=
  if biased_exponent b =? 0 then inject_Z (fraction_field b) * (2 # 1) ^ (-1074)
  else inject_Z (2 ^ 52 + fraction_field b) * (2 # 1) ^ (biased_exponent b - 1075).

Definition double_value (b : N) : Q := if negative b then - magnitude b else magnitude b.

(** [q] is a best approximation of [x] among the doubles. *)
Definition nearest_double (x : Q) (b : N) : Prop :=
  finite_double b /\ forall z, finite_double z -> (Qabs (double_value b - x) <= Qabs (double_value z - x))%Q.

(** [x] rounded to twelve decimals is [s / 10^12]. *)
Definition rounded_to_12 (x : Q) (s : Z) : Prop := (Qabs (x * inject_Z (10 ^ 12) - inject_Z s) <= 1 # 2)%Q.

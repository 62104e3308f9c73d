(** Property C50. *)
From Coq Require Import QArith Qabs.
From Verif Require Import Base F64Model F64Spec F64SpecProofs DateModel DateProofs.
Open Scope Z_scope.

(** The instant, in seconds after 1900-01-01, that a Julian day number stands for. *)
Definition instant (julian : Q) : Q := (julian - 2415021) * 86400.

(** C50. Any date from 1900 to (almost) the last representable one is read back as itself or one second later. *)
Theorem C50_date_roundtrip : forall s, 0 <= s <= max_date - 3 ->
  exists r, as_datetime (as_double s) = Ok r /\ s <= r <= s + 1.
Proof. exact date_roundtrip. Qed.
Print Assumptions C50_date_roundtrip.
(** The error of the stored number is below 5 milliseconds. *)
Theorem C50_stored_value : forall s, Z.abs s <= max_date - 2 ->
  finite_double (as_double s) /\ (Qabs (instant (double_value (as_double s)) - inject_Z s) <= 1 # 200)%Q.
Proof.
  intros s H. destruct (as_double_accuracy s H) as (I & F & A). split; [apply finite_agree; split; assumption|].
  unfold instant. rewrite <- (qv_agree _ I). exact A.
Qed.
Print Assumptions C50_stored_value.
(** Earlier dates are clamped to 1900. *)
Theorem C50_early_dates_clamped : forall s, - max_date + 3 <= s < 0 -> as_datetime (as_double s) = Ok 0.
Proof. exact date_before_1900. Qed.
Print Assumptions C50_early_dates_clamped.
(** Reading any double of the supported range succeeds; the result is not before 1900 and, unless clamped, is the
    stored instant to within 1.1 seconds. *)
Theorem C50_reading_in_range : forall f, finite_double f ->
  (-100000000 <= double_value f)%Q -> (instant (double_value f) <= inject_Z (max_date - 2))%Q ->
  exists r, as_datetime f = Ok r /\ 0 <= r /\ (instant (double_value f) - (1 # 10) <= inject_Z r)%Q /\
    (r = 0 \/ (inject_Z r <= instant (double_value f) + (11 # 10))%Q).
Proof.
  intros f F L U. apply finite_agree in F as [Hi Hf]. unfold instant in *. rewrite <- (qv_agree _ Hi) in L, U.
  destruct (as_datetime_accuracy f Hi Hf L U) as (r & E & R0 & R1 & R2). exists r. rewrite <- (qv_agree _ Hi). auto.
Qed.
Print Assumptions C50_reading_in_range.

(** Midnight 1900-01-01 itself is read back as one second later. *)
Theorem C50_exact_roundtrip_refuted : exists s, 0 <= s <= max_date - 3 /\ as_datetime (as_double s) = Ok (s + 1).
Proof. exists 0. split; [vm_compute; split; discriminate|]. vm_compute. reflexivity. Qed.
Print Assumptions C50_exact_roundtrip_refuted.
(** The seconds add up: each time such a drawing is saved and loaded its date may move on. *)
Theorem C50_no_drift_refuted : exists s, 0 <= s <= max_date - 7 /\ as_datetime (as_double s) = Ok (s + 1) /\ as_datetime (as_double (s + 1)) = Ok (s + 2) /\
  as_datetime (as_double (s + 2)) = Ok (s + 3) /\ as_datetime (as_double (s + 3)) = Ok (s + 4) /\ as_datetime (as_double (s + 4)) = Ok (s + 4).
Proof. exists 3155666320. split; [vm_compute; split; discriminate|]. repeat split; vm_compute; reflexivity. Qed.
Print Assumptions C50_no_drift_refuted.
(** Doubles far outside, and the infinities, make the reader panic. *)
Theorem C50_never_fails_refuted : exists f, finite_double f /\ as_datetime f = Err Panic.
Proof.
  exists 0x7E37E43C8800759C%N. split; [apply finite_agree; split; vm_compute; reflexivity|]. vm_compute. reflexivity.
Qed.
Print Assumptions C50_never_fails_refuted.
Theorem C50_infinities_refuted : as_datetime (f64_inf false) = Err Panic /\ as_datetime (f64_inf true) = Err Panic.
Proof. split; vm_compute; reflexivity. Qed.
Print Assumptions C50_infinities_refuted.
(** A year beyond chrono's last one panics, too. *)
Theorem C50_late_dates_refuted : exists f, finite_double f /\ (double_value f == 100000000)%Q /\ as_datetime f = Err Panic.
Proof.
  exists (f64_of_Z 100000000). split; [apply finite_agree; split; vm_compute; reflexivity|].
  split; vm_compute; reflexivity.
Qed.
Print Assumptions C50_late_dates_refuted.

(** Durations in whole seconds survive up to 2^53 seconds, not beyond. *)
Theorem C50_duration_roundtrip : forall n, 0 <= n < 2 ^ 53 -> as_duration (duration_as_double n) = n.
Proof. exact duration_roundtrip. Qed.
Print Assumptions C50_duration_roundtrip.
Theorem C50_long_duration_refuted : exists n, 0 <= n < 2 ^ 64 /\ as_duration (duration_as_double n) <> n.
Proof. exists 9007199254740993. split; [split; [discriminate|reflexivity]|]. vm_compute. discriminate. Qed.
Print Assumptions C50_long_duration_refuted.

(** 1999-12-31T21:58:35 is 3155666315 seconds after 1900 (the example of the file format's documentation). *)
Example C50_case : as_datetime (f64_of_rat false 245154491568287 100000000) = Ok 3155666315 /\
  as_datetime (as_double 3155666315) = Ok 3155666316 /\ as_datetime (as_double 3155666314) = Ok 3155666315 /\ as_datetime (f64_of_Z 2451545) = Ok (3155673600 + 1) /\
  as_datetime (as_double (-5)) = Ok 0 /\ as_datetime f64_nan_result = Ok 0 /\ as_datetime 0 = Ok 0.
Proof. vm_compute. repeat split; reflexivity. Qed.

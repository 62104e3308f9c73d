(** Lemmas about single precision numbers. *)
From Coq Require Import Ascii String NArith ZArith Bool Lia List Znumtheory.
From Coq Require Import ZifyBool ZifyNat ZifyN.
From Verif Require Import Base TextModel TextProofs F64Model F64Proofs F32Model.
Import ListNotations.
Open Scope Z_scope.
Ltac Zify.zify_post_hook ::= Z.div_mod_to_equations.
Arguments Z.pow : simpl never.
Arguments N.pow : simpl never.

Lemma n32 : (2 ^ 32)%N = 4294967296%N. Proof. reflexivity. Qed.
Lemma n31 : (2 ^ 31)%N = 2147483648%N. Proof. reflexivity. Qed.
Lemma z31 : 2 ^ 31 = 2147483648. Proof. reflexivity. Qed.
Lemma z24 : 2 ^ 24 = 16777216. Proof. reflexivity. Qed.
Lemma z23 : 2 ^ 23 = 8388608. Proof. reflexivity. Qed.
Lemma f32_abs_bits_range : forall b, 0 <= f32_abs_bits b < 2 ^ 31.
Proof. intros. unfold f32_abs_bits. apply Z.mod_pos_bound. rewrite z31. reflexivity. Qed.

Lemma f32_bits_split : forall b, is_f32 b = true -> b = (sign32 (f32_neg b) + Z.to_N (f32_abs_bits b))%N.
Proof.
  intros b H. unfold is_f32, f32_neg, f32_abs_bits, sign32 in *.
  rewrite ?n32, ?n31, ?z31 in *. destruct (_ <=? _)%N eqn:E; lia.
Qed.

Lemma f32_exp_range : forall b, 0 <= f32_exp b <= 255.
Proof.
  intros b. unfold f32_exp. pose proof (f32_abs_bits_range b) as R.
  rewrite z31 in R. rewrite z23. lia.
Qed.
Lemma f32_frac_range : forall b, 0 <= f32_frac b < 2 ^ 23.
Proof. intros. unfold f32_frac. apply Z.mod_pos_bound. rewrite z23. reflexivity. Qed.

Lemma f32_abs_fields : forall b, f32_abs_bits b = f32_exp b * 2 ^ 23 + f32_frac b.
Proof.
  intros b. unfold f32_exp, f32_frac. pose proof (Z.div_mod (f32_abs_bits b) (2 ^ 23) ltac:(rewrite z23; discriminate)). lia.
Qed.

Lemma f32_me_bits : forall b, f32_abs_bits b = (f32_e b + 149) * 2 ^ 23 + f32_m b.
Proof.
  intros b. rewrite f32_abs_fields. unfold f32_e, f32_m. destruct (f32_exp b =? 0) eqn:E; lia.
Qed.

Lemma f32_m_range : forall b, 0 <= f32_m b < 2 ^ 24.
Proof.
  intros b. pose proof (f32_frac_range b). unfold f32_m.
  rewrite z24, z23 in *. destruct (f32_exp b =? 0); lia.
Qed.

Lemma f32_e_range : forall b, f32_finite b = true -> -149 <= f32_e b <= 104.
Proof.
  intros b H. unfold f32_finite in H. pose proof (f32_exp_range b). unfold f32_e. destruct (f32_exp b =? 0) eqn:E; lia.
Qed.

(** Either normal, or subnormal at the smallest exponent. *)
Lemma f32_m_normal : forall b, 2 ^ 23 <= f32_m b \/ f32_e b = -149.
Proof.
  intros b. unfold f32_m, f32_e. pose proof (f32_frac_range b). destruct (f32_exp b =? 0) eqn:E; lia.
Qed.

Lemma f32_den_pos : forall b, 0 < f32_den b.
Proof. intros. apply pow2max_pos. Qed.
Lemma f32_num_nonneg : forall b, 0 <= f32_num b.
Proof. intros b. unfold f32_num. pose proof (f32_m_range b). pose proof (pow2max_pos (f32_e b)). nia. Qed.

(** The exponent chosen by [f32_of_rat] for a fraction near m * 2^e. *)
Lemma exp32_choice : forall n d m e, 0 < n -> 0 < d -> 0 < m < 2 ^ 24 -> -149 <= e ->
  (2 ^ 23 <= m \/ e = -149) ->
  n * 2 ^ Z.max 0 (- e) = m * 2 ^ Z.max 0 e * d ->
  Z.max (-149) (log2_rat n d - 23) = e.
Proof.
  intros n d m e Hn Hd Hm He Hnorm E.
  assert (B : log2_rat n d = e + Z.log2 m).
  { apply (in_binade_unique n d); auto; [apply log2_rat_spec; assumption|].
    pose proof (Z.log2_spec m ltac:(lia)) as [Lm Um]. pose proof (Z.log2_nonneg m) as Nm.
    set (l := Z.log2 m) in *.
    (* common shift s: n * 2^s = m * d * 2^(s+e) *)
    assert (Es : forall s, 0 <= s -> 0 <= s + e -> n * 2 ^ s = m * d * 2 ^ (s + e)).
    { intros s Hs Hse. apply Z.le_antisymm.
      - pose proof (shift_le (m * d) n (- e) (s + e) Hse ltac:(lia)) as S.
        replace (Z.max 0 (- - e)) with (Z.max 0 e) in S by lia.
        replace (s + e + - e) with s in S by lia. apply S. lia.
      - pose proof (shift_le n (m * d) e s Hs Hse) as S. apply S. lia. }
    unfold in_binade. split.
    - apply (shift_le n d (e + l) (Z.max 0 (- e))); [lia|lia|].
      rewrite Es by lia. set (t := Z.max 0 (- e) + e). 
      replace (Z.max 0 (- e) + (e + l)) with (t + l) by lia.
      rewrite Z.pow_add_r by lia. pose proof (pow2_pos t ltac:(lia)). nia.
    - apply (shift_lt n d (e + l + 1) (Z.max 0 (- e))); [lia|lia|].
      rewrite Es by lia. set (t := Z.max 0 (- e) + e).
      replace (Z.max 0 (- e) + (e + l + 1)) with (t + Z.succ l) by lia.
      rewrite Z.pow_add_r by lia. pose proof (pow2_pos t ltac:(lia)). nia. }
  rewrite B.
  destruct Hnorm as [Hnorm|Hnorm].
  - assert (Z.log2 m = 23).
    { apply Z.log2_unique; [lia|]. change (Z.succ 23) with 24. lia. }
    lia.
  - assert (Z.log2 m <= 23).
    { assert (Z.log2 m < 24); [|lia]. apply Z.log2_lt_pow2; lia. }
    lia.
Qed.

(** Reading back the exact value of a finite double gives the same bits. *)
Lemma f32_of_rat_exact : forall b n d,
  is_f32 b = true -> f32_finite b = true -> 0 <= n -> 0 < d ->
  n * f32_den b = f32_num b * d ->
  f32_of_rat (f32_neg b) n d = b.
Proof.
  intros b n d Hb Hf Hn Hd E.
  rewrite (f32_bits_split b Hb) at 2. unfold f32_of_rat. f_equal. f_equal.
  pose proof (f32_m_range b) as Rm. pose proof (f32_e_range b Hf) as Re. pose proof (f32_m_normal b) as Nm.
  unfold f32_den, f32_num in E.
  pose proof (pow2max_pos (f32_e b)) as P1. pose proof (pow2max_pos (- f32_e b)) as P2.
  destruct (n =? 0) eqn:E0.
  - assert (M0 : f32_m b = 0) by nia.
    rewrite f32_me_bits, M0. destruct Nm as [Nm|Nm]; [|lia].
    rewrite M0 in Nm. exfalso. rewrite z23 in Nm. lia.
  - assert (M0 : 0 < f32_m b) by nia.
    rewrite (exp32_choice n d (f32_m b) (f32_e b)); try lia.
    set (p := 2 ^ Z.max 0 (f32_e b)) in *. set (p' := 2 ^ Z.max 0 (- f32_e b)) in *.
    replace (n * p') with (f32_m b * (d * p)) by lia.
    rewrite round_exact by nia. rewrite <- f32_me_bits.
    apply Z.min_l. unfold f32_finite, f32_exp in Hf. unfold inf32.
    pose proof (f32_abs_bits_range b) as R. rewrite z23 in *. lia.
Qed.

(** * Values from bits *)



Lemma f32_neg_mk : forall neg mag, 0 <= mag < 2 ^ 31 -> f32_neg (sign32 neg + Z.to_N mag) = neg.
Proof.
  intros neg mag H. unfold f32_neg, sign32. rewrite z31 in H. rewrite n31. destruct neg; lia.
Qed.
Lemma f32_abs_mk : forall neg mag, 0 <= mag < 2 ^ 31 -> f32_abs_bits (sign32 neg + Z.to_N mag) = mag.
Proof.
  intros neg mag H. unfold f32_abs_bits, sign32. rewrite z31 in *. rewrite n31. destruct neg; lia.
Qed.
Lemma is_f32_mk : forall neg mag, 0 <= mag < 2 ^ 31 -> is_f32 (sign32 neg + Z.to_N mag) = true.
Proof.
  intros neg mag H. unfold is_f32, sign32. rewrite z31 in H. rewrite n31, n32. destruct neg; lia.
Qed.

(** Value of the bits computed by [f32_of_rat]; [q = 2^24] carries into the next binade. *)
Lemma f32_value_mk : forall neg e q,
  -149 <= e -> 0 <= q <= 2 ^ 24 -> (2 ^ 23 <= q \/ e = -149) ->
  (e + 149) * 2 ^ 23 + q < inf32 ->
  let b := (sign32 neg + Z.to_N ((e + 149) * 2 ^ 23 + q))%N in
  is_f32 b = true /\ f32_finite b = true /\ f32_neg b = neg /\
  f32_num b * 2 ^ Z.max 0 (- e) = q * 2 ^ Z.max 0 e * f32_den b.
Proof.
  intros neg e q He Hq Hn Hi b.
  assert (Hr : 0 <= (e + 149) * 2 ^ 23 + q < 2 ^ 31).
  { unfold inf32 in Hi. rewrite z31. rewrite z23 in *. nia. }
  assert (Ha : f32_abs_bits b = (e + 149) * 2 ^ 23 + q) by (apply f32_abs_mk; assumption).
  assert (Hf : f32_finite b = true).
  { unfold f32_finite, f32_exp. rewrite Ha. unfold inf32 in Hi. rewrite z23 in *. lia. }
  split; [apply is_f32_mk; assumption|]. split; [assumption|].
  split; [apply f32_neg_mk; assumption|].
  unfold f32_num, f32_den.
  destruct (Z.eq_dec q (2 ^ 24)) as [Eq|Nq].
  - assert (M : f32_m b = 2 ^ 23 /\ f32_e b = e + 1).
    { unfold f32_m, f32_e, f32_exp, f32_frac. rewrite Ha, Eq. rewrite z24, z23.
      replace ((e + 149) * 8388608 + 16777216) with ((e + 151) * 8388608) by lia.
      rewrite Z.div_mul by lia. rewrite Z.mod_mul by lia.
      replace (e + 151 =? 0) with false by lia. lia. }
    destruct M as [-> ->]. rewrite Eq. change (2 ^ 24) with (2 * 2 ^ 23).
    pose proof (pow2_max_split e) as P.
    assert (P' : 2 ^ Z.max 0 (e + 1) * 2 ^ Z.max 0 (- e) = 2 * (2 ^ Z.max 0 e * 2 ^ Z.max 0 (- (e + 1)))) by exact P.
    replace (2 ^ 23 * 2 ^ Z.max 0 (e + 1) * 2 ^ Z.max 0 (- e)) with (2 ^ 23 * (2 ^ Z.max 0 (e + 1) * 2 ^ Z.max 0 (- e))) by ring.
    rewrite P'. ring.
  - assert (M : f32_m b = q /\ f32_e b = e).
    { unfold f32_m, f32_e, f32_exp, f32_frac. rewrite Ha. rewrite z24, z23 in *.
      destruct (Z_lt_le_dec q 8388608) as [L|L].
      - assert (e = -149) by lia. subst e.
        replace ((-149 + 149) * 8388608 + q) with q by lia.
        rewrite Z.div_small by lia. rewrite Z.mod_small by lia. rewrite Z.eqb_refl. lia.
      - replace ((e + 149) * 8388608 + q) with ((q - 8388608) + (e + 150) * 8388608) by lia.
        rewrite Z.div_add by lia. rewrite Z.mod_add by lia.
        rewrite Z.div_small by lia. rewrite Z.mod_small by lia.
        replace (0 + (e + 150) =? 0) with false by lia. lia. }
    destruct M as [-> ->]. ring.
Qed.
(** Scaling the bounds of a binade to the exponent of the significand. *)
Lemma binade32_upper : forall n d k e, 0 < d -> k - 23 <= e ->
  n * 2 ^ Z.max 0 (- (k + 1)) < d * 2 ^ Z.max 0 (k + 1) ->
  n * 2 ^ Z.max 0 (- e) < 2 ^ 24 * (d * 2 ^ Z.max 0 e).
Proof.
  intros n d k e Hd He U.
  assert (exists s, 0 <= s /\ 0 <= s + (k + 1) /\ 0 <= s + e) as (s & S1 & S2 & S3).
  { exists (Z.max 0 (- (k + 1)) + Z.max 0 (- e)). lia. }
  apply (shift_lt n d (k + 1) s S1 S2) in U.
  replace (2 ^ 24 * (d * 2 ^ Z.max 0 e)) with ((2 ^ 24 * d) * 2 ^ Z.max 0 e) by ring.
  apply (shift_lt n (2 ^ 24 * d) e s S1 S3).
  eapply Z.lt_le_trans; [exact U|].
  replace (2 ^ 24 * d * 2 ^ (s + e)) with (d * (2 ^ 24 * 2 ^ (s + e))) by ring.
  rewrite <- Z.pow_add_r by lia. apply Z.mul_le_mono_nonneg_l; [lia|]. apply Z.pow_le_mono_r; lia.
Qed.
Lemma binade32_lower : forall n d k e, 0 < d -> e = k - 23 ->
  d * 2 ^ Z.max 0 k <= n * 2 ^ Z.max 0 (- k) ->
  2 ^ 23 * (d * 2 ^ Z.max 0 e) <= n * 2 ^ Z.max 0 (- e).
Proof.
  intros n d k e Hd He L.
  assert (exists s, 0 <= s /\ 0 <= s + k /\ 0 <= s + e) as (s & S1 & S2 & S3).
  { exists (Z.max 0 (- k) + Z.max 0 (- e)). lia. }
  apply (shift_le n d k s S1 S2) in L.
  replace (2 ^ 23 * (d * 2 ^ Z.max 0 e)) with ((2 ^ 23 * d) * 2 ^ Z.max 0 e) by ring.
  apply (shift_le n (2 ^ 23 * d) e s S1 S3).
  eapply Z.le_trans; [|exact L].
  replace (2 ^ 23 * d * 2 ^ (s + e)) with (d * (2 ^ 23 * 2 ^ (s + e))) by ring.
  rewrite <- Z.pow_add_r by lia. apply Z.mul_le_mono_nonneg_l; [lia|]. apply Z.pow_le_mono_r; lia.
Qed.

(** What [f32_of_rat] computes for a positive fraction. *)
Lemma f32_of_rat_shape : forall neg n d, 0 < n -> 0 < d ->
  exists e q, -149 <= e /\ 0 <= q <= 2 ^ 24 /\ (2 ^ 23 <= q \/ e = -149) /\
    e = Z.max (-149) (log2_rat n d - 23) /\
    rounds_to (n * 2 ^ Z.max 0 (- e)) (d * 2 ^ Z.max 0 e) q /\
    f32_of_rat neg n d = (sign32 neg + Z.to_N (Z.min ((e + 149) * 2 ^ 23 + q) inf32))%N.
Proof.
  intros neg n d Hn Hd. unfold f32_of_rat. replace (n =? 0) with false by lia. cbv zeta.
  pose proof (log2_rat_spec n d Hn Hd) as [L U]. set (k := log2_rat n d) in *. clearbody k.
  remember (Z.max (-149) (k - 23)) as e eqn:Ee.
  remember (round_half_even (n * 2 ^ Z.max 0 (- e)) (d * 2 ^ Z.max 0 e)) as q eqn:Eq.
  assert (HD : 0 < d * 2 ^ Z.max 0 e) by (pose proof (pow2max_pos e); clear - H Hd; nia).
  assert (HN : 0 <= n * 2 ^ Z.max 0 (- e)) by (pose proof (pow2max_pos (- e)); clear - H Hn; nia).
  assert (S : rounds_to (n * 2 ^ Z.max 0 (- e)) (d * 2 ^ Z.max 0 e) q)
    by (rewrite Eq; apply round_half_even_spec; exact HD).
  exists e, q. split; [clear - Ee; lia|].
  split; [|split; [|split; [reflexivity|split; [exact S|reflexivity]]]].
  - split; [rewrite Eq; apply round_nonneg; assumption|].
    eapply round_upper; [exact HD|exact S|]. apply (binade32_upper n d k e Hd); [clear - Ee; lia|exact U].
  - destruct (Z_le_gt_dec (k - 23) (-149)); [right; lia|left].
    eapply round_lower; [exact HD|exact S|]. apply (binade32_lower n d k e Hd); [clear - Ee g; lia|exact L].
Qed.

(** ** Correct rounding *)

(** |value of b - n/d| * (den b * d) *)
Definition dist32 (b : N) (n d : Z) : Z := Z.abs (f32_num b * d - n * f32_den b).

(** If b = x * P / P' exactly, distances scale. *)
Lemma dist32_scale : forall b x P P' n d, 0 < P' ->
  f32_num b * P' = x * P * f32_den b ->
  dist32 b n d * P' = Z.abs (x * (d * P) - n * P') * f32_den b.
Proof.
  intros b x P P' n d HP' Hv. pose proof (f32_den_pos b) as Db.
  unfold dist32. rewrite <- (Z.abs_eq P') at 1 by lia. rewrite <- Z.abs_mul.
  rewrite <- (Z.abs_eq (f32_den b)) at 2 by lia. rewrite <- Z.abs_mul. f_equal.
  replace ((f32_num b * d - n * f32_den b) * P') with (f32_num b * P' * d - n * f32_den b * P') by ring.
  rewrite Hv. ring.
Qed.

(** The finite results, with their exact value. *)
Lemma f32_of_rat_value : forall neg n d, 0 < n -> 0 < d -> f32_finite (f32_of_rat neg n d) = true ->
  exists e q, e = Z.max (-149) (log2_rat n d - 23) /\ 0 <= q <= 2 ^ 24 /\ (2 ^ 23 <= q \/ e = -149) /\
    rounds_to (n * 2 ^ Z.max 0 (- e)) (d * 2 ^ Z.max 0 e) q /\
    f32_num (f32_of_rat neg n d) * 2 ^ Z.max 0 (- e) = q * 2 ^ Z.max 0 e * f32_den (f32_of_rat neg n d).
Proof.
  intros neg n d Hn Hd Hf.
  destruct (f32_of_rat_shape neg n d Hn Hd) as (e & q & He & Hq & Hnorm & Ee & Hr & Hb).
  assert (Hinf : (e + 149) * 2 ^ 23 + q < inf32).
  { destruct (Z_lt_le_dec ((e + 149) * 2 ^ 23 + q) inf32) as [|C]; [assumption|exfalso].
    rewrite (Z.min_r _ _ C) in Hb. rewrite Hb in Hf. unfold f32_finite, f32_exp in Hf.
    rewrite f32_abs_mk in Hf by (unfold inf32; rewrite z31, z23; clear; lia).
    unfold inf32 in Hf. rewrite Z.div_mul in Hf by (rewrite z23; clear; lia). discriminate. }
  rewrite Z.min_l in Hb by (clear - Hinf; lia).
  destruct (f32_value_mk neg e q He Hq Hnorm Hinf) as (_ & _ & _ & Hv). rewrite <- Hb in Hv.
  exists e, q. auto.
Qed.

Lemma f32_of_rat_nearest : forall neg n d z,
  0 <= n -> 0 < d -> f32_finite (f32_of_rat neg n d) = true -> f32_finite z = true ->
  dist32 (f32_of_rat neg n d) n d * f32_den z <= dist32 z n d * f32_den (f32_of_rat neg n d).
Proof.
  intros neg n d z Hn Hd Hf Hz.
  destruct (Z.eq_dec n 0) as [->|N0].
  { assert (E0 : f32_of_rat neg 0 d = (sign32 neg + Z.to_N 0)%N) by reflexivity.
    set (b := f32_of_rat neg 0 d) in *. clearbody b.
    assert (A : f32_abs_bits b = 0) by (rewrite E0; apply f32_abs_mk; rewrite z31; clear; lia).
    assert (f32_num b = 0).
    { unfold f32_num. replace (f32_m b) with 0; [clear; lia|]. unfold f32_m, f32_exp, f32_frac. rewrite A. reflexivity. }
    unfold dist32. rewrite H. replace (Z.abs (0 * d - 0 * f32_den b)) with 0 by (clear; lia).
    pose proof (f32_den_pos b) as P. pose proof (Z.abs_nonneg (f32_num z * d - 0 * f32_den z)) as Q.
    clear - P Q. nia. }
  destruct (f32_of_rat_value neg n d ltac:(clear - Hn N0; lia) Hd Hf) as (e & q & Ee & Hq & Hnorm & Hr & Hv).
  set (b := f32_of_rat neg n d) in *. clearbody b.
  pose proof (f32_den_pos b) as Db. pose proof (f32_den_pos z) as Dz.
  assert (HP : 0 < 2 ^ Z.max 0 e) by apply pow2max_pos. assert (HP' : 0 < 2 ^ Z.max 0 (- e)) by apply pow2max_pos.
  pose proof (dist32_scale b q _ _ n d HP' Hv) as Hdist.
  assert (HD : 0 < d * 2 ^ Z.max 0 e) by (clear - HP Hd; nia).
  enough (Hk : Z.abs (q * (d * 2 ^ Z.max 0 e) - n * 2 ^ Z.max 0 (- e)) * f32_den z <= dist32 z n d * 2 ^ Z.max 0 (- e)).
  { assert (dist32 b n d * f32_den z * 2 ^ Z.max 0 (- e) <= dist32 z n d * f32_den b * 2 ^ Z.max 0 (- e)).
    - replace (dist32 b n d * f32_den z * 2 ^ Z.max 0 (- e)) with (dist32 b n d * 2 ^ Z.max 0 (- e) * f32_den z) by ring.
      rewrite Hdist.
      replace (Z.abs (q * (d * 2 ^ Z.max 0 e) - n * 2 ^ Z.max 0 (- e)) * f32_den b * f32_den z)
      with (Z.abs (q * (d * 2 ^ Z.max 0 e) - n * 2 ^ Z.max 0 (- e)) * f32_den z * f32_den b) by ring.
      replace (dist32 z n d * f32_den b * 2 ^ Z.max 0 (- e)) with (dist32 z n d * 2 ^ Z.max 0 (- e) * f32_den b) by ring.
      apply Z.mul_le_mono_nonneg_r; [clear - Db; lia|exact Hk].
    - apply (Z.mul_le_mono_pos_r _ _ (2 ^ Z.max 0 (- e)) HP'). exact H. }
  pose proof (f32_e_range z Hz) as Rz. pose proof (f32_m_range z) as Mz.
  destruct (Z_le_gt_dec e (f32_e z)) as [Le|Gt].
  - (* z is an integer multiple t of 2^e *)
    pose proof (nearest_integer _ _ q (f32_m z * 2 ^ (f32_e z - e)) HD Hr) as Ni.
    assert (Hz2 : f32_num z * 2 ^ Z.max 0 (- e) = f32_m z * 2 ^ (f32_e z - e) * 2 ^ Z.max 0 e * f32_den z).
    { unfold f32_num, f32_den. generalize dependent (f32_e z). intros f Rz Le _. clear - Le.
      assert (X : 2 ^ Z.max 0 f * 2 ^ Z.max 0 (- e) = 2 ^ (f - e) * 2 ^ Z.max 0 e * 2 ^ Z.max 0 (- f)).
      { rewrite <- !Z.pow_add_r by lia. f_equal. lia. }
      replace (f32_m z * 2 ^ Z.max 0 f * 2 ^ Z.max 0 (- e)) with (f32_m z * (2 ^ Z.max 0 f * 2 ^ Z.max 0 (- e))) by ring.
      rewrite X. ring. }
    rewrite (dist32_scale z _ _ _ n d HP' Hz2).
    apply Z.mul_le_mono_nonneg_r; [clear - Dz; lia|exact Ni].
  - (* z lies below the binade *)
    pose proof (log2_rat_spec n d ltac:(clear - Hn N0; lia) Hd) as [L _].
    assert (LB : 2 ^ 23 * (d * 2 ^ Z.max 0 e) <= n * 2 ^ Z.max 0 (- e)).
    { apply (binade32_lower n d (log2_rat n d) e Hd); [clear - Ee Gt Rz; lia|exact L]. }
    pose proof (nearest_integer _ _ q (2 ^ 23) HD Hr) as Ni.
    assert (Zu : f32_num z * 2 ^ Z.max 0 (- e) <= 2 ^ 23 * 2 ^ Z.max 0 e * f32_den z).
    { unfold f32_num, f32_den. revert Gt Mz. generalize (f32_e z). generalize (f32_m z). clear.
      intros m f Gt Mz.
      assert (X : 2 * (2 ^ Z.max 0 f * 2 ^ Z.max 0 (- e)) <= 2 ^ Z.max 0 e * 2 ^ Z.max 0 (- f)).
      { rewrite <- !Z.pow_add_r by lia. rewrite <- Z.pow_succ_r by lia. apply Z.pow_le_mono_r; lia. }
      pose proof (pow2max_pos f) as P1. pose proof (pow2max_pos (- e)) as P2.
      replace (m * 2 ^ Z.max 0 f * 2 ^ Z.max 0 (- e)) with (m * (2 ^ Z.max 0 f * 2 ^ Z.max 0 (- e))) by ring.
      replace (2 ^ 23 * 2 ^ Z.max 0 e * 2 ^ Z.max 0 (- f)) with (2 ^ 23 * (2 ^ Z.max 0 e * 2 ^ Z.max 0 (- f))) by ring.
      assert (0 < 2 ^ Z.max 0 f * 2 ^ Z.max 0 (- e)) by (clear - P1 P2; nia).
      revert X H Mz. generalize (2 ^ Z.max 0 f * 2 ^ Z.max 0 (- e)). generalize (2 ^ Z.max 0 e * 2 ^ Z.max 0 (- f)).
      intros y x X H Mz. rewrite z24, z23 in *. clear - X H Mz. nia. }
    assert (Hd2 : dist32 z n d * 2 ^ Z.max 0 (- e) = Z.abs (f32_num z * 2 ^ Z.max 0 (- e) * d - n * 2 ^ Z.max 0 (- e) * f32_den z)).
    { unfold dist32. rewrite <- (Z.abs_eq (2 ^ Z.max 0 (- e))) at 1 by (clear - HP'; lia). rewrite <- Z.abs_mul. f_equal. ring. }
    rewrite Hd2.
    eapply Z.le_trans; [apply Z.mul_le_mono_nonneg_r; [clear - Dz; lia|exact Ni]|].
    rewrite (Z.abs_neq (2 ^ 23 * (d * 2 ^ Z.max 0 e) - n * 2 ^ Z.max 0 (- e))) by (clear - LB; lia).
    clear - Zu LB Dz Hd. revert Zu LB Dz.
    generalize (f32_num z * 2 ^ Z.max 0 (- e)). generalize (n * 2 ^ Z.max 0 (- e)).
    generalize (2 ^ Z.max 0 e). generalize (f32_den z). generalize (2 ^ 23).
    intros c Z P N X Zu LB Dz.
    assert (X * d <= N * Z).
    { assert (X * d <= c * P * Z * d) by (clear - Zu Hd; nia).
      assert (c * P * Z * d <= N * Z); [|lia]. replace (c * P * Z * d) with (c * (d * P) * Z) by ring. clear - LB Dz. nia. }
    rewrite Z.abs_neq by (clear - H; lia).
    assert (X * d <= c * (d * P) * Z); [|clear - H0; lia].
    replace (c * (d * P) * Z) with (c * P * Z * d) by ring. clear - Zu Hd. nia.
Qed.

(** * Text form *)


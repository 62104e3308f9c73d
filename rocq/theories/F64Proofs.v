(** Lemmas about doubles and their text form. *)
From Coq Require Import Ascii String NArith ZArith Bool Lia List Znumtheory.
From Coq Require Import ZifyBool ZifyNat ZifyN.
From Verif Require Import Base TextModel TextProofs F64Model.
Import ListNotations.
Open Scope Z_scope.
Ltac Zify.zify_post_hook ::= Z.div_mod_to_equations.
Arguments Z.pow : simpl never.
Arguments N.pow : simpl never.

Lemma n64 : (2 ^ 64)%N = 18446744073709551616%N. Proof. reflexivity. Qed.
Lemma n63 : (2 ^ 63)%N = 9223372036854775808%N. Proof. reflexivity. Qed.
Lemma z63 : 2 ^ 63 = 9223372036854775808. Proof. reflexivity. Qed.
Lemma z53 : 2 ^ 53 = 9007199254740992. Proof. reflexivity. Qed.
Lemma z52 : 2 ^ 52 = 4503599627370496. Proof. reflexivity. Qed.

Lemma pow2_pos : forall k, 0 <= k -> 0 < 2 ^ k.
Proof. intros. apply Z.pow_pos_nonneg; lia. Qed.
Lemma pow10_pos : forall k, 0 <= k -> 0 < 10 ^ k.
Proof. intros. apply Z.pow_pos_nonneg; lia. Qed.
Lemma pow2max_pos : forall k, 0 < 2 ^ Z.max 0 k.
Proof. intros. apply pow2_pos. lia. Qed.

(** * Rounding *)

Definition rounds_to (n d q : Z) : Prop :=
  - d <= 2 * (n - q * d) <= d /\
  (2 * (n - q * d) = d -> Z.even q = true) /\
  (2 * (n - q * d) = - d -> Z.even q = true).

Lemma round_half_even_spec : forall n d, 0 < d -> rounds_to n d (round_half_even n d).
Proof.
  intros n d Hd. unfold round_half_even, rounds_to.
  pose proof (Z.div_mod n d ltac:(lia)) as E. pose proof (Z.mod_pos_bound n d Hd) as B.
  set (q := n / d) in *. set (r := n mod d) in *. clearbody q r.
  assert (Er : r = n - q * d) by lia.
  destruct (2 * r <? d) eqn:E1; [|destruct (d <? 2 * r) eqn:E2; [|destruct (Z.even q) eqn:E3]].
  - repeat split; intros; lia.
  - replace (n - (q + 1) * d) with (r - d) by lia. repeat split; intros; lia.
  - repeat split; intros; try lia; assumption.
  - replace (n - (q + 1) * d) with (r - d) by lia.
    assert (Z.even (q + 1) = true).
    { rewrite Z.even_add. rewrite E3. reflexivity. }
    repeat split; intros; try lia; assumption.
Qed.

Lemma rounds_to_unique : forall n d q1 q2, 0 < d -> rounds_to n d q1 -> rounds_to n d q2 -> q1 = q2.
Proof.
  intros n d q1 q2 Hd (B1 & U1 & D1) (B2 & U2 & D2).
  assert (C : q1 - q2 = 0 \/ q1 - q2 = 1 \/ q1 - q2 = -1).
  { assert (- 2 * d <= 2 * ((q1 - q2) * d) <= 2 * d) by lia.
    assert (-1 <= q1 - q2 <= 1) by nia. lia. }
  destruct C as [C|[C|C]]; [lia| |].
  - assert (E : q1 = q2 + 1) by lia. subst q1. clear C.
    assert (T2 : 2 * (n - q2 * d) = d) by lia. assert (T1 : 2 * (n - (q2 + 1) * d) = - d) by lia.
    apply U2 in T2. apply D1 in T1. rewrite Z.even_add, T2 in T1. discriminate.
  - assert (E : q2 = q1 + 1) by lia. subst q2. clear C.
    assert (T1 : 2 * (n - q1 * d) = d) by lia. assert (T2 : 2 * (n - (q1 + 1) * d) = - d) by lia.
    apply U1 in T1. apply D2 in T2. rewrite Z.even_add, T1 in T2. discriminate.
Qed.

Lemma rounds_to_scale : forall n d k q, 0 < k -> 0 < d -> rounds_to (n * k) (d * k) q <-> rounds_to n d q.
Proof.
  intros n d k q Hk Hd. unfold rounds_to.
  replace (n * k - q * (d * k)) with ((n - q * d) * k) by ring.
  set (x := n - q * d). clearbody x.
  split; intros (A & B & C); (split; [nia|split; intros T; [apply B|apply C]; nia]).
Qed.

Lemma rounds_to_ratio : forall n d n' d' q, 0 < d -> 0 < d' -> n * d' = n' * d ->
  rounds_to n d q -> rounds_to n' d' q.
Proof.
  intros n d n' d' q Hd Hd' E H.
  apply (rounds_to_scale n' d' d q); [assumption|assumption|].
  rewrite <- E. replace (d' * d) with (d * d') by ring.
  apply rounds_to_scale; assumption.
Qed.

Lemma round_ratio : forall n d n' d', 0 < d -> 0 < d' -> n * d' = n' * d ->
  round_half_even n d = round_half_even n' d'.
Proof.
  intros n d n' d' Hd Hd' E. apply (rounds_to_unique n' d'); [assumption| |].
  - eapply rounds_to_ratio; [exact Hd|exact Hd'|exact E|]. apply round_half_even_spec. assumption.
  - apply round_half_even_spec. assumption.
Qed.

Lemma round_exact : forall q d, 0 < d -> round_half_even (q * d) d = q.
Proof.
  intros q d Hd. apply (rounds_to_unique (q * d) d); [assumption|apply round_half_even_spec; assumption|].
  unfold rounds_to. replace (q * d - q * d) with 0 by ring. repeat split; intros; lia.
Qed.

Lemma round_nonneg : forall n d, 0 <= n -> 0 < d -> 0 <= round_half_even n d.
Proof.
  intros n d Hn Hd. unfold round_half_even. pose proof (Z.div_pos n d Hn Hd).
  destruct (_ <? _); [assumption|]. destruct (_ <? _); [lia|]. destruct (Z.even _); lia.
Qed.

(** * Logarithm of a fraction *)

(** 2^k <= n/d < 2^(k+1), written without negative exponents. *)
Definition in_binade (n d k : Z) : Prop :=
  d * 2 ^ Z.max 0 k <= n * 2 ^ Z.max 0 (- k) /\
  n * 2 ^ Z.max 0 (- (k + 1)) < d * 2 ^ Z.max 0 (k + 1).

Lemma pow2_max_split : forall k, 2 ^ Z.max 0 (k + 1) * 2 ^ Z.max 0 (- k) = 2 * (2 ^ Z.max 0 k * 2 ^ Z.max 0 (- (k + 1))).
Proof.
  intros k. destruct (Z_lt_le_dec k 0) as [H|H].
  - destruct (Z.eq_dec k (-1)) as [->|N]; [reflexivity|].
    replace (Z.max 0 (k + 1)) with 0 by lia. replace (Z.max 0 k) with 0 by lia.
    replace (Z.max 0 (- k)) with (Z.succ (- (k + 1))) by lia.
    replace (Z.max 0 (- (k + 1))) with (- (k + 1)) by lia.
    rewrite Z.pow_succ_r by lia. ring.
  - replace (Z.max 0 (- k)) with 0 by lia. replace (Z.max 0 (- (k + 1))) with 0 by lia.
    replace (Z.max 0 k) with k by lia. replace (Z.max 0 (k + 1)) with (Z.succ k) by lia.
    rewrite Z.pow_succ_r by lia. ring.
Qed.

(** Comparing n/d with a power of two, for a common positive shift. *)
Lemma shift_le : forall n d k s, 0 <= s -> 0 <= s + k ->
  (d * 2 ^ Z.max 0 k <= n * 2 ^ Z.max 0 (- k) <-> d * 2 ^ (s + k) <= n * 2 ^ s).
Proof.
  intros n d k s Hs Hk. destruct (Z_lt_le_dec k 0) as [H|H].
  - replace (Z.max 0 k) with 0 by lia. replace (Z.max 0 (- k)) with (- k) by lia.
    replace s with ((s + k) + (- k)) at 2 by lia. rewrite (Z.pow_add_r 2 (s + k) (- k)) by lia.
    pose proof (pow2_pos (s + k) Hk). change (2 ^ 0) with 1.
    replace (n * (2 ^ (s + k) * 2 ^ (- k))) with ((n * 2 ^ (- k)) * 2 ^ (s + k)) by ring.
    rewrite Z.mul_1_r. split; intros; nia.
  - replace (Z.max 0 k) with k by lia. replace (Z.max 0 (- k)) with 0 by lia.
    rewrite (Z.pow_add_r 2 s k) by lia. pose proof (pow2_pos s Hs). change (2 ^ 0) with 1.
    replace (d * (2 ^ s * 2 ^ k)) with ((d * 2 ^ k) * 2 ^ s) by ring.
    rewrite Z.mul_1_r. split; intros; nia.
Qed.

Lemma shift_lt : forall n d k s, 0 <= s -> 0 <= s + k ->
  (n * 2 ^ Z.max 0 (- k) < d * 2 ^ Z.max 0 k <-> n * 2 ^ s < d * 2 ^ (s + k)).
Proof.
  intros n d k s Hs Hk. pose proof (shift_le n d k s Hs Hk). lia.
Qed.

Lemma in_binade_unique : forall n d k1 k2, 0 < n -> 0 < d ->
  in_binade n d k1 -> in_binade n d k2 -> k1 = k2.
Proof.
  assert (A : forall n d k1 k2, 0 < n -> 0 < d -> in_binade n d k1 -> in_binade n d k2 -> k1 < k2 -> False).
  { intros n d k1 k2 Hn Hd [_ U1] [L2 _] H.
    set (s := Z.max 0 (- (k1 + 1)) + Z.max 0 (- k2)).
    apply (shift_lt n d (k1 + 1) s) in U1; [|lia|lia].
    apply (shift_le n d k2 s) in L2; [|lia|lia].
    assert (2 ^ (s + (k1 + 1)) <= 2 ^ (s + k2)) by (apply Z.pow_le_mono_r; lia).
    nia. }
  intros n d k1 k2 Hn Hd H1 H2.
  destruct (Z.lt_trichotomy k1 k2) as [H|[H|H]]; [|assumption|]; exfalso.
  - exact (A n d k1 k2 Hn Hd H1 H2 H).
  - exact (A n d k2 k1 Hn Hd H2 H1 H).
Qed.

Lemma log2_rat_spec : forall n d, 0 < n -> 0 < d -> in_binade n d (log2_rat n d).
Proof.
  intros n d Hn Hd. unfold log2_rat.
  pose proof (Z.log2_spec n Hn) as [Ln Un]. pose proof (Z.log2_spec d Hd) as [Ld Ud].
  pose proof (Z.log2_nonneg n) as Nn. pose proof (Z.log2_nonneg d) as Nd.
  set (a := Z.log2 n) in *. set (c := Z.log2 d) in *.
  rewrite Z.pow_succ_r in Un by assumption. rewrite Z.pow_succ_r in Ud by assumption.
  (* n < 2^(a+1), d >= 2^c : n/d < 2^(a-c+1);  n >= 2^a, d < 2^(c+1) : n/d > 2^(a-c-1) *)
  assert (U : n * 2 ^ Z.max 0 (- (a - c + 1)) < d * 2 ^ Z.max 0 (a - c + 1)).
  { apply (shift_lt n d (a - c + 1) (c + 1)); [lia|lia|].
    replace (c + 1 + (a - c + 1)) with (Z.succ (Z.succ a)) by lia.
    replace (c + 1) with (Z.succ c) by lia. rewrite !Z.pow_succ_r by lia.
    pose proof (pow2_pos a Nn). pose proof (pow2_pos c Nd). nia. }
  destruct (d * 2 ^ Z.max 0 (a - c) <=? n * 2 ^ Z.max 0 (- (a - c))) eqn:E.
  - split; [lia|exact U].
  - split.
    + apply (shift_le n d (a - c - 1) (c + 1)); [lia|lia|].
      replace (c + 1 + (a - c - 1)) with a by lia. replace (c + 1) with (Z.succ c) by lia.
      rewrite Z.pow_succ_r by lia. pose proof (pow2_pos a Nn). pose proof (pow2_pos c Nd). nia.
    + replace (a - c - 1 + 1) with (a - c) by lia. lia.
Qed.

Lemma in_binade_ratio : forall n d n' d' k, 0 < d -> 0 < d' -> n * d' = n' * d ->
  in_binade n d k -> in_binade n' d' k.
Proof.
  intros n d n' d' k Hd Hd' E [L U]. unfold in_binade.
  set (p := 2 ^ Z.max 0 k) in *. set (p' := 2 ^ Z.max 0 (- k)) in *.
  set (r := 2 ^ Z.max 0 (k + 1)) in *. set (r' := 2 ^ Z.max 0 (- (k + 1))) in *.
  assert (0 < p) by apply pow2max_pos. assert (0 < p') by apply pow2max_pos.
  assert (0 < r) by apply pow2max_pos. assert (0 < r') by apply pow2max_pos.
  split.
  - assert (d * (d' * p) <= d * (n' * p')); [|nia].
    replace (d * (n' * p')) with ((n' * d) * p') by ring. rewrite <- E.
    replace (n * d' * p') with (d' * (n * p')) by ring. replace (d * (d' * p)) with (d' * (d * p)) by ring. nia.
  - assert (d * (n' * r') < d * (d' * r)); [|nia].
    replace (d * (n' * r')) with ((n' * d) * r') by ring. rewrite <- E.
    replace (n * d' * r') with (d' * (n * r')) by ring. replace (d * (d' * r)) with (d' * (d * r)) by ring. nia.
Qed.

Lemma log2_rat_ratio : forall n d n' d', 0 < n -> 0 < d -> 0 < n' -> 0 < d' -> n * d' = n' * d ->
  log2_rat n d = log2_rat n' d'.
Proof.
  intros n d n' d' Hn Hd Hn' Hd' E. apply (in_binade_unique n' d'); auto.
  - eapply in_binade_ratio; [exact Hd|exact Hd'|exact E|]. apply log2_rat_spec; assumption.
  - apply log2_rat_spec; assumption.
Qed.

(** The result depends on the ratio only. *)
Lemma f64_of_rat_ratio : forall neg n d n' d', 0 <= n -> 0 < d -> 0 <= n' -> 0 < d' -> n * d' = n' * d ->
  f64_of_rat neg n d = f64_of_rat neg n' d'.
Proof.
  intros neg n d n' d' Hn Hd Hn' Hd' E. unfold f64_of_rat. f_equal. f_equal.
  destruct (n =? 0) eqn:E0.
  - replace (n' =? 0) with true by nia. reflexivity.
  - replace (n' =? 0) with false by nia.
    rewrite (log2_rat_ratio n d n' d') by (try lia; assumption).
    set (e := Z.max (-1074) _). do 2 f_equal.
    pose proof (pow2max_pos e). pose proof (pow2max_pos (- e)).
    apply round_ratio; [nia|nia|].
    replace (n * 2 ^ Z.max 0 (- e) * (d' * 2 ^ Z.max 0 e)) with ((n * d') * (2 ^ Z.max 0 (- e) * 2 ^ Z.max 0 e)) by ring.
    rewrite E. ring.
Qed.

(** * Fields *)

Lemma f64_abs_bits_range : forall b, 0 <= f64_abs_bits b < 2 ^ 63.
Proof. intros. unfold f64_abs_bits. apply Z.mod_pos_bound. rewrite z63. reflexivity. Qed.

Lemma f64_bits_split : forall b, is_f64 b = true -> b = (sign_bit (f64_neg b) + Z.to_N (f64_abs_bits b))%N.
Proof.
  intros b H. unfold is_f64, f64_neg, f64_abs_bits, sign_bit in *.
  rewrite ?n64, ?n63, ?z63 in *. destruct (_ <=? _)%N eqn:E; lia.
Qed.

Lemma f64_exp_range : forall b, 0 <= f64_exp b <= 2047.
Proof.
  intros b. unfold f64_exp. pose proof (f64_abs_bits_range b) as R.
  rewrite z63 in R. rewrite z52. lia.
Qed.
Lemma f64_frac_range : forall b, 0 <= f64_frac b < 2 ^ 52.
Proof. intros. unfold f64_frac. apply Z.mod_pos_bound. rewrite z52. reflexivity. Qed.

Lemma f64_abs_fields : forall b, f64_abs_bits b = f64_exp b * 2 ^ 52 + f64_frac b.
Proof.
  intros b. unfold f64_exp, f64_frac. pose proof (Z.div_mod (f64_abs_bits b) (2 ^ 52) ltac:(rewrite z52; discriminate)). lia.
Qed.

Lemma f64_me_bits : forall b, f64_abs_bits b = (f64_e b + 1074) * 2 ^ 52 + f64_m b.
Proof.
  intros b. rewrite f64_abs_fields. unfold f64_e, f64_m. destruct (f64_exp b =? 0) eqn:E; lia.
Qed.

Lemma f64_m_range : forall b, 0 <= f64_m b < 2 ^ 53.
Proof.
  intros b. pose proof (f64_frac_range b). unfold f64_m.
  rewrite z53, z52 in *. destruct (f64_exp b =? 0); lia.
Qed.

Lemma f64_e_range : forall b, f64_finite b = true -> -1074 <= f64_e b <= 971.
Proof.
  intros b H. unfold f64_finite in H. pose proof (f64_exp_range b). unfold f64_e. destruct (f64_exp b =? 0) eqn:E; lia.
Qed.

(** Either normal, or subnormal at the smallest exponent. *)
Lemma f64_m_normal : forall b, 2 ^ 52 <= f64_m b \/ f64_e b = -1074.
Proof.
  intros b. unfold f64_m, f64_e. pose proof (f64_frac_range b). destruct (f64_exp b =? 0) eqn:E; lia.
Qed.

Lemma f64_den_pos : forall b, 0 < f64_den b.
Proof. intros. apply pow2max_pos. Qed.
Lemma f64_num_nonneg : forall b, 0 <= f64_num b.
Proof. intros b. unfold f64_num. pose proof (f64_m_range b). pose proof (pow2max_pos (f64_e b)). nia. Qed.

(** The exponent chosen by [f64_of_rat] for a fraction near m * 2^e. *)
Lemma exp_choice : forall n d m e, 0 < n -> 0 < d -> 0 < m < 2 ^ 53 -> -1074 <= e ->
  (2 ^ 52 <= m \/ e = -1074) ->
  n * 2 ^ Z.max 0 (- e) = m * 2 ^ Z.max 0 e * d ->
  Z.max (-1074) (log2_rat n d - 52) = e.
Proof.
  intros n d m e Hn Hd Hm He Hnorm E.
  assert (B : log2_rat n d = e + Z.log2 m).
  { apply (in_binade_unique n d); auto; [apply log2_rat_spec; assumption|].
    pose proof (Z.log2_spec m ltac:(lia)) as [Lm Um]. pose proof (Z.log2_nonneg m) as Nm.
    set (l := Z.log2 m) in *.
    (* common shift s: n * 2^s = m * d * 2^(s+e) *)
    assert (Es : forall s, 0 <= s -> 0 <= s + e -> n * 2 ^ s = m * d * 2 ^ (s + e)).
    { intros s Hs Hse. apply Z.le_antisymm.
      - pose proof (shift_le (m * d) n (- e) (s + e) Hse ltac:(lia)) as S.
        replace (Z.max 0 (- - e)) with (Z.max 0 e) in S by lia.
        replace (s + e + - e) with s in S by lia. apply S. lia.
      - pose proof (shift_le n (m * d) e s Hs Hse) as S. apply S. lia. }
    unfold in_binade. split.
    - apply (shift_le n d (e + l) (Z.max 0 (- e))); [lia|lia|].
      rewrite Es by lia. set (t := Z.max 0 (- e) + e). 
      replace (Z.max 0 (- e) + (e + l)) with (t + l) by lia.
      rewrite Z.pow_add_r by lia. pose proof (pow2_pos t ltac:(lia)). nia.
    - apply (shift_lt n d (e + l + 1) (Z.max 0 (- e))); [lia|lia|].
      rewrite Es by lia. set (t := Z.max 0 (- e) + e).
      replace (Z.max 0 (- e) + (e + l + 1)) with (t + Z.succ l) by lia.
      rewrite Z.pow_add_r by lia. pose proof (pow2_pos t ltac:(lia)). nia. }
  rewrite B.
  destruct Hnorm as [Hnorm|Hnorm].
  - assert (Z.log2 m = 52).
    { apply Z.log2_unique; [lia|]. change (Z.succ 52) with 53. lia. }
    lia.
  - assert (Z.log2 m <= 52).
    { assert (Z.log2 m < 53); [|lia]. apply Z.log2_lt_pow2; lia. }
    lia.
Qed.

(** Reading back the exact value of a finite double gives the same bits. *)
Lemma f64_of_rat_exact : forall b n d,
  is_f64 b = true -> f64_finite b = true -> 0 <= n -> 0 < d ->
  n * f64_den b = f64_num b * d ->
  f64_of_rat (f64_neg b) n d = b.
Proof.
  intros b n d Hb Hf Hn Hd E.
  rewrite (f64_bits_split b Hb) at 2. unfold f64_of_rat. f_equal. f_equal.
  pose proof (f64_m_range b) as Rm. pose proof (f64_e_range b Hf) as Re. pose proof (f64_m_normal b) as Nm.
  unfold f64_den, f64_num in E.
  pose proof (pow2max_pos (f64_e b)) as P1. pose proof (pow2max_pos (- f64_e b)) as P2.
  destruct (n =? 0) eqn:E0.
  - assert (M0 : f64_m b = 0) by nia.
    rewrite f64_me_bits, M0. destruct Nm as [Nm|Nm]; [|lia].
    rewrite M0 in Nm. exfalso. rewrite z52 in Nm. lia.
  - assert (M0 : 0 < f64_m b) by nia.
    rewrite (exp_choice n d (f64_m b) (f64_e b)); try lia.
    set (p := 2 ^ Z.max 0 (f64_e b)) in *. set (p' := 2 ^ Z.max 0 (- f64_e b)) in *.
    replace (n * p') with (f64_m b * (d * p)) by lia.
    rewrite round_exact by nia. rewrite <- f64_me_bits.
    apply Z.min_l. unfold f64_finite, f64_exp in Hf. unfold inf_bits.
    pose proof (f64_abs_bits_range b) as R. rewrite z52 in *. lia.
Qed.

(** * Values from bits *)

Lemma to_N_small : forall z, 0 <= z -> Z.of_N (Z.to_N z) = z.
Proof. intros. lia. Qed.

Lemma f64_neg_mk : forall neg mag, 0 <= mag < 2 ^ 63 -> f64_neg (sign_bit neg + Z.to_N mag) = neg.
Proof.
  intros neg mag H. unfold f64_neg, sign_bit. rewrite z63 in H. rewrite n63. destruct neg; lia.
Qed.
Lemma f64_abs_mk : forall neg mag, 0 <= mag < 2 ^ 63 -> f64_abs_bits (sign_bit neg + Z.to_N mag) = mag.
Proof.
  intros neg mag H. unfold f64_abs_bits, sign_bit. rewrite z63 in *. rewrite n63. destruct neg; lia.
Qed.
Lemma is_f64_mk : forall neg mag, 0 <= mag < 2 ^ 63 -> is_f64 (sign_bit neg + Z.to_N mag) = true.
Proof.
  intros neg mag H. unfold is_f64, sign_bit. rewrite z63 in H. rewrite n63, n64. destruct neg; lia.
Qed.

(** Value of the bits computed by [f64_of_rat]; [q = 2^53] carries into the next binade. *)
Lemma f64_value_mk : forall neg e q,
  -1074 <= e -> 0 <= q <= 2 ^ 53 -> (2 ^ 52 <= q \/ e = -1074) ->
  (e + 1074) * 2 ^ 52 + q < inf_bits ->
  let b := (sign_bit neg + Z.to_N ((e + 1074) * 2 ^ 52 + q))%N in
  is_f64 b = true /\ f64_finite b = true /\ f64_neg b = neg /\
  f64_num b * 2 ^ Z.max 0 (- e) = q * 2 ^ Z.max 0 e * f64_den b.
Proof.
  intros neg e q He Hq Hn Hi b.
  assert (Hr : 0 <= (e + 1074) * 2 ^ 52 + q < 2 ^ 63).
  { unfold inf_bits in Hi. rewrite z63. rewrite z52 in *. nia. }
  assert (Ha : f64_abs_bits b = (e + 1074) * 2 ^ 52 + q) by (apply f64_abs_mk; assumption).
  assert (Hf : f64_finite b = true).
  { unfold f64_finite, f64_exp. rewrite Ha. unfold inf_bits in Hi. rewrite z52 in *. lia. }
  split; [apply is_f64_mk; assumption|]. split; [assumption|].
  split; [apply f64_neg_mk; assumption|].
  unfold f64_num, f64_den.
  destruct (Z.eq_dec q (2 ^ 53)) as [Eq|Nq].
  - assert (M : f64_m b = 2 ^ 52 /\ f64_e b = e + 1).
    { unfold f64_m, f64_e, f64_exp, f64_frac. rewrite Ha, Eq. rewrite z53, z52.
      replace ((e + 1074) * 4503599627370496 + 9007199254740992) with ((e + 1076) * 4503599627370496) by lia.
      rewrite Z.div_mul by lia. rewrite Z.mod_mul by lia.
      replace (e + 1076 =? 0) with false by lia. lia. }
    destruct M as [-> ->]. rewrite Eq. change (2 ^ 53) with (2 * 2 ^ 52).
    pose proof (pow2_max_split e) as P.
    assert (P' : 2 ^ Z.max 0 (e + 1) * 2 ^ Z.max 0 (- e) = 2 * (2 ^ Z.max 0 e * 2 ^ Z.max 0 (- (e + 1)))) by exact P.
    replace (2 ^ 52 * 2 ^ Z.max 0 (e + 1) * 2 ^ Z.max 0 (- e)) with (2 ^ 52 * (2 ^ Z.max 0 (e + 1) * 2 ^ Z.max 0 (- e))) by ring.
    rewrite P'. ring.
  - assert (M : f64_m b = q /\ f64_e b = e).
    { unfold f64_m, f64_e, f64_exp, f64_frac. rewrite Ha. rewrite z53, z52 in *.
      destruct (Z_lt_le_dec q 4503599627370496) as [L|L].
      - assert (e = -1074) by lia. subst e.
        replace ((-1074 + 1074) * 4503599627370496 + q) with q by lia.
        rewrite Z.div_small by lia. rewrite Z.mod_small by lia. rewrite Z.eqb_refl. lia.
      - replace ((e + 1074) * 4503599627370496 + q) with ((q - 4503599627370496) + (e + 1075) * 4503599627370496) by lia.
        rewrite Z.div_add by lia. rewrite Z.mod_add by lia.
        rewrite Z.div_small by lia. rewrite Z.mod_small by lia.
        replace (0 + (e + 1075) =? 0) with false by lia. lia. }
    destruct M as [-> ->]. ring.
Qed.

Lemma round_upper : forall N D q M, 0 < D -> rounds_to N D q -> N < M * D -> q <= M.
Proof. intros N D q M HD (B & _ & _) H. nia. Qed.
Lemma round_lower : forall N D q M, 0 < D -> rounds_to N D q -> M * D <= N -> M <= q.
Proof. intros N D q M HD (B & _ & _) H. nia. Qed.

(** Scaling the bounds of a binade to the exponent of the significand. *)
Lemma binade_upper : forall n d k e, 0 < d -> k - 52 <= e ->
  n * 2 ^ Z.max 0 (- (k + 1)) < d * 2 ^ Z.max 0 (k + 1) ->
  n * 2 ^ Z.max 0 (- e) < 2 ^ 53 * (d * 2 ^ Z.max 0 e).
Proof.
  intros n d k e Hd He U.
  assert (exists s, 0 <= s /\ 0 <= s + (k + 1) /\ 0 <= s + e) as (s & S1 & S2 & S3).
  { exists (Z.max 0 (- (k + 1)) + Z.max 0 (- e)). lia. }
  apply (shift_lt n d (k + 1) s S1 S2) in U.
  replace (2 ^ 53 * (d * 2 ^ Z.max 0 e)) with ((2 ^ 53 * d) * 2 ^ Z.max 0 e) by ring.
  apply (shift_lt n (2 ^ 53 * d) e s S1 S3).
  eapply Z.lt_le_trans; [exact U|].
  replace (2 ^ 53 * d * 2 ^ (s + e)) with (d * (2 ^ 53 * 2 ^ (s + e))) by ring.
  rewrite <- Z.pow_add_r by lia. apply Z.mul_le_mono_nonneg_l; [lia|]. apply Z.pow_le_mono_r; lia.
Qed.
Lemma binade_lower : forall n d k e, 0 < d -> e = k - 52 ->
  d * 2 ^ Z.max 0 k <= n * 2 ^ Z.max 0 (- k) ->
  2 ^ 52 * (d * 2 ^ Z.max 0 e) <= n * 2 ^ Z.max 0 (- e).
Proof.
  intros n d k e Hd He L.
  assert (exists s, 0 <= s /\ 0 <= s + k /\ 0 <= s + e) as (s & S1 & S2 & S3).
  { exists (Z.max 0 (- k) + Z.max 0 (- e)). lia. }
  apply (shift_le n d k s S1 S2) in L.
  replace (2 ^ 52 * (d * 2 ^ Z.max 0 e)) with ((2 ^ 52 * d) * 2 ^ Z.max 0 e) by ring.
  apply (shift_le n (2 ^ 52 * d) e s S1 S3).
  eapply Z.le_trans; [|exact L].
  replace (2 ^ 52 * d * 2 ^ (s + e)) with (d * (2 ^ 52 * 2 ^ (s + e))) by ring.
  rewrite <- Z.pow_add_r by lia. apply Z.mul_le_mono_nonneg_l; [lia|]. apply Z.pow_le_mono_r; lia.
Qed.

(** What [f64_of_rat] computes for a positive fraction. *)
Lemma f64_of_rat_shape : forall neg n d, 0 < n -> 0 < d ->
  exists e q, -1074 <= e /\ 0 <= q <= 2 ^ 53 /\ (2 ^ 52 <= q \/ e = -1074) /\
    e = Z.max (-1074) (log2_rat n d - 52) /\
    rounds_to (n * 2 ^ Z.max 0 (- e)) (d * 2 ^ Z.max 0 e) q /\
    f64_of_rat neg n d = (sign_bit neg + Z.to_N (Z.min ((e + 1074) * 2 ^ 52 + q) inf_bits))%N.
Proof.
  intros neg n d Hn Hd. unfold f64_of_rat. replace (n =? 0) with false by lia. cbv zeta.
  pose proof (log2_rat_spec n d Hn Hd) as [L U]. set (k := log2_rat n d) in *. clearbody k.
  remember (Z.max (-1074) (k - 52)) as e eqn:Ee.
  remember (round_half_even (n * 2 ^ Z.max 0 (- e)) (d * 2 ^ Z.max 0 e)) as q eqn:Eq.
  assert (HD : 0 < d * 2 ^ Z.max 0 e) by (pose proof (pow2max_pos e); clear - H Hd; nia).
  assert (HN : 0 <= n * 2 ^ Z.max 0 (- e)) by (pose proof (pow2max_pos (- e)); clear - H Hn; nia).
  assert (S : rounds_to (n * 2 ^ Z.max 0 (- e)) (d * 2 ^ Z.max 0 e) q)
    by (rewrite Eq; apply round_half_even_spec; exact HD).
  exists e, q. split; [clear - Ee; lia|].
  split; [|split; [|split; [reflexivity|split; [exact S|reflexivity]]]].
  - split; [rewrite Eq; apply round_nonneg; assumption|].
    eapply round_upper; [exact HD|exact S|]. apply (binade_upper n d k e Hd); [clear - Ee; lia|exact U].
  - destruct (Z_le_gt_dec (k - 52) (-1074)); [right; lia|left].
    eapply round_lower; [exact HD|exact S|]. apply (binade_lower n d k e Hd); [clear - Ee g; lia|exact L].
Qed.

(** ** Correct rounding *)

(** |value of b - n/d| * (den b * d) *)
Definition dist (b : N) (n d : Z) : Z := Z.abs (f64_num b * d - n * f64_den b).

Lemma nearest_integer : forall N D q t, 0 < D -> rounds_to N D q -> Z.abs (q * D - N) <= Z.abs (t * D - N).
Proof.
  intros N D q t HD (B & _ & _). destruct (Z.eq_dec q t) as [->|H]; [lia|].
  assert (2 * Z.abs (q * D - N) <= D) by lia.
  assert (D <= Z.abs (t * D - q * D)).
  { replace (t * D - q * D) with ((t - q) * D) by ring. rewrite Z.abs_mul. rewrite (Z.abs_eq D) by lia.
    assert (1 <= Z.abs (t - q)) by lia. nia. }
  lia.
Qed.

(** If b = x * P / P' exactly, distances scale. *)
Lemma dist_scale : forall b x P P' n d, 0 < P' ->
  f64_num b * P' = x * P * f64_den b ->
  dist b n d * P' = Z.abs (x * (d * P) - n * P') * f64_den b.
Proof.
  intros b x P P' n d HP' Hv. pose proof (f64_den_pos b) as Db.
  unfold dist. rewrite <- (Z.abs_eq P') at 1 by lia. rewrite <- Z.abs_mul.
  rewrite <- (Z.abs_eq (f64_den b)) at 2 by lia. rewrite <- Z.abs_mul. f_equal.
  replace ((f64_num b * d - n * f64_den b) * P') with (f64_num b * P' * d - n * f64_den b * P') by ring.
  rewrite Hv. ring.
Qed.

(** The finite results, with their exact value. *)
Lemma f64_of_rat_value : forall neg n d, 0 < n -> 0 < d -> f64_finite (f64_of_rat neg n d) = true ->
  exists e q, e = Z.max (-1074) (log2_rat n d - 52) /\ 0 <= q <= 2 ^ 53 /\ (2 ^ 52 <= q \/ e = -1074) /\
    rounds_to (n * 2 ^ Z.max 0 (- e)) (d * 2 ^ Z.max 0 e) q /\
    f64_num (f64_of_rat neg n d) * 2 ^ Z.max 0 (- e) = q * 2 ^ Z.max 0 e * f64_den (f64_of_rat neg n d).
Proof.
  intros neg n d Hn Hd Hf.
  destruct (f64_of_rat_shape neg n d Hn Hd) as (e & q & He & Hq & Hnorm & Ee & Hr & Hb).
  assert (Hinf : (e + 1074) * 2 ^ 52 + q < inf_bits).
  { destruct (Z_lt_le_dec ((e + 1074) * 2 ^ 52 + q) inf_bits) as [|C]; [assumption|exfalso].
    rewrite (Z.min_r _ _ C) in Hb. rewrite Hb in Hf. unfold f64_finite, f64_exp in Hf.
    rewrite f64_abs_mk in Hf by (unfold inf_bits; rewrite z63, z52; clear; lia).
    unfold inf_bits in Hf. rewrite Z.div_mul in Hf by (rewrite z52; clear; lia). discriminate. }
  rewrite Z.min_l in Hb by (clear - Hinf; lia).
  destruct (f64_value_mk neg e q He Hq Hnorm Hinf) as (_ & _ & _ & Hv). rewrite <- Hb in Hv.
  exists e, q. auto.
Qed.

Lemma f64_of_rat_nearest : forall neg n d z,
  0 <= n -> 0 < d -> f64_finite (f64_of_rat neg n d) = true -> f64_finite z = true ->
  dist (f64_of_rat neg n d) n d * f64_den z <= dist z n d * f64_den (f64_of_rat neg n d).
Proof.
  intros neg n d z Hn Hd Hf Hz.
  destruct (Z.eq_dec n 0) as [->|N0].
  { assert (E0 : f64_of_rat neg 0 d = (sign_bit neg + Z.to_N 0)%N) by reflexivity.
    set (b := f64_of_rat neg 0 d) in *. clearbody b.
    assert (A : f64_abs_bits b = 0) by (rewrite E0; apply f64_abs_mk; rewrite z63; clear; lia).
    assert (f64_num b = 0).
    { unfold f64_num. replace (f64_m b) with 0; [clear; lia|]. unfold f64_m, f64_exp, f64_frac. rewrite A. reflexivity. }
    unfold dist. rewrite H. replace (Z.abs (0 * d - 0 * f64_den b)) with 0 by (clear; lia).
    pose proof (f64_den_pos b) as P. pose proof (Z.abs_nonneg (f64_num z * d - 0 * f64_den z)) as Q.
    clear - P Q. nia. }
  destruct (f64_of_rat_value neg n d ltac:(clear - Hn N0; lia) Hd Hf) as (e & q & Ee & Hq & Hnorm & Hr & Hv).
  set (b := f64_of_rat neg n d) in *. clearbody b.
  pose proof (f64_den_pos b) as Db. pose proof (f64_den_pos z) as Dz.
  assert (HP : 0 < 2 ^ Z.max 0 e) by apply pow2max_pos. assert (HP' : 0 < 2 ^ Z.max 0 (- e)) by apply pow2max_pos.
  pose proof (dist_scale b q _ _ n d HP' Hv) as Hdist.
  assert (HD : 0 < d * 2 ^ Z.max 0 e) by (clear - HP Hd; nia).
  enough (Hk : Z.abs (q * (d * 2 ^ Z.max 0 e) - n * 2 ^ Z.max 0 (- e)) * f64_den z <= dist z n d * 2 ^ Z.max 0 (- e)).
  { assert (dist b n d * f64_den z * 2 ^ Z.max 0 (- e) <= dist z n d * f64_den b * 2 ^ Z.max 0 (- e)).
    - replace (dist b n d * f64_den z * 2 ^ Z.max 0 (- e)) with (dist b n d * 2 ^ Z.max 0 (- e) * f64_den z) by ring.
      rewrite Hdist.
      replace (Z.abs (q * (d * 2 ^ Z.max 0 e) - n * 2 ^ Z.max 0 (- e)) * f64_den b * f64_den z)
      with (Z.abs (q * (d * 2 ^ Z.max 0 e) - n * 2 ^ Z.max 0 (- e)) * f64_den z * f64_den b) by ring.
      replace (dist z n d * f64_den b * 2 ^ Z.max 0 (- e)) with (dist z n d * 2 ^ Z.max 0 (- e) * f64_den b) by ring.
      apply Z.mul_le_mono_nonneg_r; [clear - Db; lia|exact Hk].
    - apply (Z.mul_le_mono_pos_r _ _ (2 ^ Z.max 0 (- e)) HP'). exact H. }
  pose proof (f64_e_range z Hz) as Rz. pose proof (f64_m_range z) as Mz.
  destruct (Z_le_gt_dec e (f64_e z)) as [Le|Gt].
  - (* z is an integer multiple t of 2^e *)
    pose proof (nearest_integer _ _ q (f64_m z * 2 ^ (f64_e z - e)) HD Hr) as Ni.
    assert (Hz2 : f64_num z * 2 ^ Z.max 0 (- e) = f64_m z * 2 ^ (f64_e z - e) * 2 ^ Z.max 0 e * f64_den z).
    { unfold f64_num, f64_den. generalize dependent (f64_e z). intros f Rz Le _. clear - Le.
      assert (X : 2 ^ Z.max 0 f * 2 ^ Z.max 0 (- e) = 2 ^ (f - e) * 2 ^ Z.max 0 e * 2 ^ Z.max 0 (- f)).
      { rewrite <- !Z.pow_add_r by lia. f_equal. lia. }
      replace (f64_m z * 2 ^ Z.max 0 f * 2 ^ Z.max 0 (- e)) with (f64_m z * (2 ^ Z.max 0 f * 2 ^ Z.max 0 (- e))) by ring.
      rewrite X. ring. }
    rewrite (dist_scale z _ _ _ n d HP' Hz2).
    apply Z.mul_le_mono_nonneg_r; [clear - Dz; lia|exact Ni].
  - (* z lies below the binade *)
    pose proof (log2_rat_spec n d ltac:(clear - Hn N0; lia) Hd) as [L _].
    assert (LB : 2 ^ 52 * (d * 2 ^ Z.max 0 e) <= n * 2 ^ Z.max 0 (- e)).
    { apply (binade_lower n d (log2_rat n d) e Hd); [clear - Ee Gt Rz; lia|exact L]. }
    pose proof (nearest_integer _ _ q (2 ^ 52) HD Hr) as Ni.
    assert (Zu : f64_num z * 2 ^ Z.max 0 (- e) <= 2 ^ 52 * 2 ^ Z.max 0 e * f64_den z).
    { unfold f64_num, f64_den. revert Gt Mz. generalize (f64_e z). generalize (f64_m z). clear.
      intros m f Gt Mz.
      assert (X : 2 * (2 ^ Z.max 0 f * 2 ^ Z.max 0 (- e)) <= 2 ^ Z.max 0 e * 2 ^ Z.max 0 (- f)).
      { rewrite <- !Z.pow_add_r by lia. rewrite <- Z.pow_succ_r by lia. apply Z.pow_le_mono_r; lia. }
      pose proof (pow2max_pos f) as P1. pose proof (pow2max_pos (- e)) as P2.
      replace (m * 2 ^ Z.max 0 f * 2 ^ Z.max 0 (- e)) with (m * (2 ^ Z.max 0 f * 2 ^ Z.max 0 (- e))) by ring.
      replace (2 ^ 52 * 2 ^ Z.max 0 e * 2 ^ Z.max 0 (- f)) with (2 ^ 52 * (2 ^ Z.max 0 e * 2 ^ Z.max 0 (- f))) by ring.
      assert (0 < 2 ^ Z.max 0 f * 2 ^ Z.max 0 (- e)) by (clear - P1 P2; nia).
      revert X H Mz. generalize (2 ^ Z.max 0 f * 2 ^ Z.max 0 (- e)). generalize (2 ^ Z.max 0 e * 2 ^ Z.max 0 (- f)).
      intros y x X H Mz. rewrite z53, z52 in *. clear - X H Mz. nia. }
    assert (Hd2 : dist z n d * 2 ^ Z.max 0 (- e) = Z.abs (f64_num z * 2 ^ Z.max 0 (- e) * d - n * 2 ^ Z.max 0 (- e) * f64_den z)).
    { unfold dist. rewrite <- (Z.abs_eq (2 ^ Z.max 0 (- e))) at 1 by (clear - HP'; lia). rewrite <- Z.abs_mul. f_equal. ring. }
    rewrite Hd2.
    eapply Z.le_trans; [apply Z.mul_le_mono_nonneg_r; [clear - Dz; lia|exact Ni]|].
    rewrite (Z.abs_neq (2 ^ 52 * (d * 2 ^ Z.max 0 e) - n * 2 ^ Z.max 0 (- e))) by (clear - LB; lia).
    clear - Zu LB Dz Hd. revert Zu LB Dz.
    generalize (f64_num z * 2 ^ Z.max 0 (- e)). generalize (n * 2 ^ Z.max 0 (- e)).
    generalize (2 ^ Z.max 0 e). generalize (f64_den z). generalize (2 ^ 52).
    intros c Z P N X Zu LB Dz.
    assert (X * d <= N * Z).
    { assert (X * d <= c * P * Z * d) by (clear - Zu Hd; nia).
      assert (c * P * Z * d <= N * Z); [|lia]. replace (c * P * Z * d) with (c * (d * P) * Z) by ring. clear - LB Dz. nia. }
    rewrite Z.abs_neq by (clear - H; lia).
    assert (X * d <= c * (d * P) * Z); [|clear - H0; lia].
    replace (c * (d * P) * Z) with (c * P * Z * d) by ring. clear - Zu Hd. nia.
Qed.

(** * Text form *)

Definition dchar (d : N) : N := (d + 48)%N.

Lemma show_dec_dchar : forall n, show_dec n = map dchar (digits 10 n).
Proof. reflexivity. Qed.

Lemma span_digits_map : forall ds r,
  Forall (fun d => (d < 10)%N) ds ->
  (match r with c :: _ => dec_value c = None | [] => True end) ->
  span_digits (map dchar ds ++ r) = (ds, r).
Proof.
  induction ds as [|d ds IH]; intros r H Hr.
  - cbn [map app]. destruct r as [|c r]; [reflexivity|]. cbn [span_digits]. rewrite Hr. reflexivity.
  - inversion H; subst. cbn [map app span_digits]. unfold dchar at 1. rewrite dec_value_digit by assumption.
    rewrite IH by assumption. reflexivity.
Qed.

Lemma horner_app : forall l1 l2 acc, horner acc (l1 ++ l2) = horner (horner acc l1) l2.
Proof. intros. unfold horner. apply fold_left_app. Qed.

Lemma horner_acc : forall l acc, horner acc l = (acc * 10 ^ N.of_nat (length l) + horner 0 l)%N.
Proof.
  induction l as [|d l IH]; intros acc.
  - cbn [length]. change (horner acc []) with acc. change (horner 0 []) with 0%N.
    change (N.of_nat 0) with 0%N. rewrite N.pow_0_r. lia.
  - cbn [length]. change (horner acc (d :: l)) with (horner (acc * 10 + d) l).
    change (horner 0 (d :: l)) with (horner (0 * 10 + d) l). rewrite IH. rewrite (IH (0 * 10 + d)%N).
    replace (N.of_nat (S (length l))) with (N.succ (N.of_nat (length l))) by lia. rewrite N.pow_succ_r'. ring.
Qed.

Lemma horner_digits : forall n, horner 0 (digits 10 n) = n.
Proof. intros. apply (digits_undigits 10 n). lia. Qed.

Lemma horner_zeros : forall k acc, horner acc (repeat 0%N k) = (acc * 10 ^ N.of_nat k)%N.
Proof.
  intros k acc. rewrite horner_acc, repeat_length.
  replace (horner 0 (repeat 0%N k)) with 0%N; [lia|]. induction k; [reflexivity|]. exact IHk.
Qed.

(** Trailing zeros are dropped up to the decimal point. *)
Lemma drop_zeros_frac : forall A L, Forall (fun d => (d < 10)%N) L ->
  exists L' j, L = L' ++ repeat 0%N j /\
    rev (drop_zeros (rev (A ++ 46%N :: map dchar L))) = A ++ 46%N :: map dchar L'.
Proof.
  intros A L. induction L as [|d L IH] using rev_ind; intros H.
  - exists [], O. split; [reflexivity|].
    cbn [map]. rewrite rev_app_distr. cbn [rev app drop_zeros].
    change (46 =? 48)%N with false. cbn iota. cbn [rev]. rewrite rev_involutive. reflexivity.
  - apply Forall_app in H as [HL Hd]. inversion Hd; subst.
    assert (R : rev (A ++ 46%N :: map dchar (L ++ [d])) = dchar d :: rev (A ++ 46%N :: map dchar L)).
    { rewrite map_app. cbn [map]. rewrite app_comm_cons, app_assoc. rewrite rev_app_distr. reflexivity. }
    rewrite R. cbn [drop_zeros]. unfold dchar at 1. destruct (d + 48 =? 48)%N eqn:E.
    + assert (d = 0%N) by lia. subst d. destruct (IH HL) as (L' & j & E1 & E2).
      exists L', (S j). split.
      * rewrite E1. rewrite <- app_assoc. f_equal. clear. induction j; [reflexivity|]. cbn. f_equal. exact IHj.
      * exact E2.
    + exists (L ++ [d]), O. split; [rewrite app_nil_r; reflexivity|].
      cbn [rev]. rewrite rev_involutive. rewrite map_app. cbn [map].
      rewrite <- app_assoc. reflexivity.
Qed.

Lemma map_repeat' : forall (A B : Type) (f : A -> B) x k, map f (repeat x k) = repeat (f x) k.
Proof. induction k; [reflexivity|]. cbn. f_equal. assumption. Qed.

Lemma z1012 : 10 ^ 12 = 1000000000000. Proof. reflexivity. Qed.

Lemma f64_scaled_nonneg : forall b, 0 <= f64_scaled b.
Proof.
  intros b. unfold f64_scaled. pose proof (f64_num_nonneg b). pose proof (f64_den_pos b).
  apply round_nonneg; [|assumption]. rewrite z1012. lia.
Qed.

(** The written text: sign, integer digits, point, at least one fraction digit, denoting
    exactly [f64_scaled b / 10^12]. *)
Lemma format_f64_shape : forall b, f64_finite b = true ->
  exists fs, fs <> [] /\ Forall (fun d => (d < 10)%N) fs /\
    format_f64 b = (if f64_neg b then [45%N] else []) ++
                   map dchar (digits 10 (Z.to_N (f64_scaled b / 10 ^ 12))) ++ 46%N :: map dchar fs /\
    Z.of_N (horner 0 (digits 10 (Z.to_N (f64_scaled b / 10 ^ 12)) ++ fs)) * 10 ^ 12
      = f64_scaled b * 10 ^ Z.of_nat (length fs).
Proof.
  intros b Hf. pose proof (f64_scaled_nonneg b) as Hs.
  unfold format_f64, format_12. rewrite Hf.
  remember (f64_scaled b) as s eqn:Es. clear Es.
  set (ip := digits 10 (Z.to_N (s / 10 ^ 12))).
  set (sg := if f64_neg b then [45%N] else []).
  set (fp := Z.to_N (s mod 10 ^ 12)).
  assert (Hfp : (fp < 10 ^ N.of_nat 12)%N).
  { unfold fp. change (10 ^ N.of_nat 12)%N with 1000000000000%N. rewrite z1012. lia. }
  assert (Hlen : (length (digits 10 fp) <= 12)%nat) by (apply digits_fuel_length; [lia|lia|exact Hfp]).
  set (L := repeat 0%N (12 - length (digits 10 fp)) ++ digits 10 fp).
  assert (EL : zero_pad 12 (show_dec fp) = map dchar L).
  { unfold zero_pad, L. rewrite map_app. rewrite map_repeat'. rewrite show_dec_dchar, map_length. reflexivity. }
  assert (LL : length L = 12%nat) by (unfold L; rewrite app_length, repeat_length; lia).
  assert (RL : Forall (fun d => (d < 10)%N) L).
  { unfold L. apply Forall_app. split; [|apply digits_range; lia].
    apply Forall_forall. intros x Hx. apply repeat_spec in Hx. subst. lia. }
  assert (VL : horner 0 L = fp).
  { unfold L. rewrite horner_app, horner_zeros. apply horner_digits. }
  rewrite show_dec_dchar. fold ip. rewrite EL.
  destruct (drop_zeros_frac (sg ++ map dchar ip) L RL) as (L' & j & E1 & E2).
  rewrite <- app_assoc in E2. cbn [app] in E2 |- *. rewrite E2.
  assert (HLj : (length L' + j = 12)%nat) by (rewrite <- LL, E1, app_length, repeat_length; lia).
  assert (VL' : (horner 0 L' * 10 ^ N.of_nat j)%N = fp).
  { rewrite <- VL, E1, horner_app, horner_zeros. reflexivity. }
  assert (Vip : horner 0 ip = Z.to_N (s / 10 ^ 12)) by apply horner_digits.
  assert (Hsplit : s = 10 ^ 12 * (s / 10 ^ 12) + s mod 10 ^ 12) by (apply Z.div_mod; discriminate).
  destruct L' as [|d L'].
  - (* no fraction digit left: a single 0 is appended *)
    exists [0%N]. split; [congruence|]. split; [repeat constructor|]. 
    cbn [map]. rewrite app_assoc, rev_app_distr. cbn [rev app].
    change (46 =? 46)%N with true. cbn iota. split.
    + rewrite <- !app_assoc. reflexivity.
    + assert (fp = 0%N) by (rewrite <- VL'; reflexivity).
      rewrite horner_app, Vip. unfold horner. cbn [fold_left length].
      assert (s mod 10 ^ 12 = 0). { unfold fp in H. rewrite z1012 in *. lia. }
      rewrite Hsplit at 2. rewrite H0. rewrite z1012 in *. change (10 ^ Z.of_nat 1) with 10. lia.
  - exists (d :: L'). split; [congruence|].
    assert (RL' : Forall (fun d => (d < 10)%N) (d :: L')) by (rewrite E1 in RL; apply Forall_app in RL; tauto).
    split; [exact RL'|]. split.
    + assert (Hlast : exists x t, rev (sg ++ map dchar ip ++ 46%N :: map dchar (d :: L')) = x :: t /\ (x =? 46)%N = false).
      { destruct (exists_last (l := d :: L') ltac:(congruence)) as (l0 & y & El0). rewrite El0 in RL' |- *.
        rewrite map_app. cbn [map]. rewrite app_comm_cons, !app_assoc, rev_app_distr. cbn [rev app].
        eexists. eexists. split; [reflexivity|].
        apply Forall_app in RL' as [_ RL']. inversion RL'; subst. unfold dchar. lia. }
      destruct Hlast as (x & t & Ex & Nx). rewrite <- !app_assoc. rewrite Ex, Nx. reflexivity.
    + rewrite horner_app, Vip, horner_acc.
      set (l := length (d :: L')) in *. set (v := horner 0 (d :: L')) in *.
      rewrite N2Z.inj_add, N2Z.inj_mul, N2Z.inj_pow. rewrite nat_N_Z. change (Z.of_N 10) with 10.
      assert (Hs12 : 0 <= s / 10 ^ 12) by (apply Z.div_pos; [assumption|reflexivity]).
      rewrite Z2N.id by assumption.
      assert (Vz : Z.of_N v * 10 ^ Z.of_nat j = s mod 10 ^ 12).
      { apply (f_equal Z.of_N) in VL'. rewrite N2Z.inj_mul, N2Z.inj_pow, nat_N_Z in VL'. change (Z.of_N 10) with 10 in VL'.
        rewrite VL'. unfold fp. apply Z2N.id. apply Z.mod_pos_bound. reflexivity. }
      assert (Pj : 10 ^ Z.of_nat l * 10 ^ Z.of_nat j = 10 ^ 12).
      { rewrite <- Z.pow_add_r by lia. f_equal. lia. }
      replace (s * 10 ^ Z.of_nat l) with ((10 ^ 12 * (s / 10 ^ 12) + s mod 10 ^ 12) * 10 ^ Z.of_nat l)
        by (rewrite <- Hsplit; reflexivity).
      rewrite <- Vz.
      assert (G : forall X v P Q T, P * Q = T -> (X * P + v) * T = (T * X + v * Q) * P) by (clear; intros; subst; ring).
      apply G. exact Pj.
Qed.

Lemma digits_first : forall n, exists d t, digits 10 n = d :: t /\ (d < 10)%N.
Proof.
  intros n. pose proof (digits_ne 10 n). pose proof (digits_range 10 n ltac:(lia)) as R.
  destruct (digits 10 n) as [|d t]; [congruence|]. inversion R; subst. eauto.
Qed.

Lemma f64_from_str_decimal : forall (neg : bool) (ip fs : list N),
  (exists d t, ip = d :: t) -> Forall (fun d => (d < 10)%N) ip ->
  Forall (fun d => (d < 10)%N) fs ->
  f64_from_str ((if neg then [45%N] else []) ++ map dchar ip ++ 46%N :: map dchar fs)
  = Some (f64_of_rat neg (Z.of_N (horner 0 (ip ++ fs))) (10 ^ Z.of_nat (length fs))).
Proof.
  intros neg ip fs (d & t & Ei) Hi Hf. unfold f64_from_str.
  set (body := map dchar ip ++ 46%N :: map dchar fs).
  assert (Hd : (d < 10)%N) by (rewrite Ei in Hi; inversion Hi; assumption).
  assert (Hsign : take_sign ((if neg then [45%N] else []) ++ body) = (neg, body)).
  { destruct neg; [reflexivity|]. unfold body. rewrite Ei. cbn [map app take_sign].
    replace (dchar d =? 45)%N with false by (unfold dchar; lia). replace (dchar d =? 43)%N with false by (unfold dchar; lia). reflexivity. }
  rewrite Hsign. cbv iota beta zeta.
  assert (Hlow : exists t', map to_lower body = (d + 48)%N :: t').
  { unfold body. rewrite Ei. cbn [map app]. eexists. f_equal. unfold to_lower, dchar.
    replace ((65 <=? d + 48)%N && (d + 48 <=? 90)%N) with false by lia. reflexivity. }
  destruct Hlow as (t' & Hlow). rewrite Hlow.
  assert (NS : forall c u, (c =? d + 48)%N = false -> seqb ((d + 48)%N :: t') (c :: u) = false).
  { intros c u Hc. cbn [seqb]. rewrite N.eqb_sym, Hc. reflexivity. }
  change (str "inf") with (105%N :: str "nf"). change (str "infinity") with (105%N :: str "nfinity").
  change (str "nan") with (110%N :: str "an"). rewrite !NS by lia. cbn [orb].
  unfold body. rewrite span_digits_map; [|assumption|reflexivity].
  change (46 =? 46)%N with true. cbv iota beta.
  rewrite <- (app_nil_r (map dchar fs)). rewrite span_digits_map; [|assumption|exact I].
  rewrite Ei at 1. cbn [app parse_exponent].
  cbv zeta. 
  replace (Z.max 0 (0 - Z.of_nat (length fs))) with 0 by lia.
  replace (Z.max 0 (- (0 - Z.of_nat (length fs)))) with (Z.of_nat (length fs)) by lia.
  change (10 ^ 0) with 1. rewrite Z.mul_1_r. rewrite Ei. reflexivity.
Qed.

Lemma format_nonwhite : forall b, Forall (fun c => is_white c = false) (format_f64 b).
Proof.
  intros b. destruct (f64_finite b) eqn:Hf.
  - destruct (format_f64_shape b Hf) as (fs & _ & Rf & E & _). rewrite E.
    assert (A : forall l, Forall (fun d => (d < 10)%N) l -> Forall (fun c => is_white c = false) (map dchar l)).
    { intros l H. apply Forall_map. eapply Forall_impl; [|exact H]. cbn. intros d Hd.
      apply nonwhite_digitish. unfold dchar. lia. }
    apply Forall_app. split; [destruct (f64_neg b); repeat constructor|].
    apply Forall_app. split; [apply A; apply digits_range; lia|].
    constructor; [reflexivity|apply A; assumption].
  - unfold format_f64, format_12. rewrite Hf.
    destruct (f64_frac b =? 0); [destruct (f64_neg b)|]; cbn; repeat constructor.
Qed.

(** Reading back a finite double rounds the value twice: to 10^-12, then to a double. *)
Lemma parse_format_f64 : forall b o, f64_finite b = true ->
  parse_f64 (format_f64 b) o = Ok (f64_of_rat (f64_neg b) (f64_scaled b) (10 ^ 12)).
Proof.
  intros b o Hf. unfold parse_f64. rewrite trim_id by apply format_nonwhite.
  destruct (format_f64_shape b Hf) as (fs & _ & Rf & E & V). rewrite E.
  rewrite f64_from_str_decimal; [|destruct (digits_first (Z.to_N (f64_scaled b / 10 ^ 12))) as (d & t & -> & _); eauto|apply digits_range; lia|assumption].
  f_equal. apply f64_of_rat_ratio.
  - lia.
  - apply pow10_pos. lia.
  - apply f64_scaled_nonneg.
  - reflexivity.
  - exact V.
Qed.

Lemma parse_format_inf : forall b o, is_f64 b = true -> f64_finite b = false -> f64_frac b = 0 ->
  parse_f64 (format_f64 b) o = Ok b.
Proof.
  intros b o Hb Hf Hz. unfold parse_f64. rewrite trim_id by apply format_nonwhite.
  assert (E : b = (sign_bit (f64_neg b) + Z.to_N inf_bits)%N).
  { rewrite (f64_bits_split b Hb) at 1. do 2 f_equal. rewrite f64_abs_fields, Hz.
    unfold f64_finite in Hf. pose proof (f64_exp_range b). unfold inf_bits. rewrite z52. lia. }
  unfold format_f64, format_12. rewrite Hf, Hz. change (0 =? 0) with true. cbn iota.
  rewrite E at 2. destruct (f64_neg b); reflexivity.
Qed.

(** * Exact cases *)

Lemma exact_4096 : forall b o, is_f64 b = true -> f64_finite b = true ->
  (exists k, f64_num b * 4096 = k * f64_den b) -> parse_f64 (format_f64 b) o = Ok b.
Proof.
  intros b o Hb Hf (k & Hk). rewrite parse_format_f64 by assumption. f_equal.
  pose proof (f64_den_pos b) as D.
  assert (S : f64_scaled b = k * 244140625).
  { unfold f64_scaled. change (10 ^ 12) with (4096 * 244140625).
    replace (f64_num b * (4096 * 244140625)) with (k * 244140625 * f64_den b) by lia.
    apply round_exact. assumption. }
  apply f64_of_rat_exact; try assumption.
  - apply f64_scaled_nonneg.
  - reflexivity.
  - rewrite S. change (10 ^ 12) with (4096 * 244140625). lia.
Qed.

Lemma z13_40 : 2 ^ 13 = 8192 /\ 2 ^ 39 = 549755813888 /\ 2 ^ 38 = 274877906944.
Proof. repeat split. Qed.

(** Every double of magnitude 8192 or more. *)
Lemma exact_large : forall b o, is_f64 b = true -> f64_finite b = true -> -39 <= f64_e b ->
  parse_f64 (format_f64 b) o = Ok b.
Proof.
  intros b o Hb Hf He.
  pose proof (f64_m_range b) as Rm. pose proof (f64_m_normal b) as Nm.
  destruct (Z_le_gt_dec (-12) (f64_e b)) as [Hi|Hlo].
  { apply exact_4096; try assumption. unfold f64_num, f64_den.
    exists (f64_m b * 2 ^ Z.max 0 (f64_e b) * 2 ^ (12 - Z.max 0 (- f64_e b))).
    rewrite <- (Z.mul_assoc _ (2 ^ (12 - _))). rewrite <- Z.pow_add_r by lia.
    replace (12 - Z.max 0 (- f64_e b) + Z.max 0 (- f64_e b)) with 12 by lia. reflexivity. }
  destruct (Z.eq_dec (f64_m b) (2 ^ 52)) as [Em|Nem].
  { apply exact_4096; try assumption. unfold f64_num, f64_den. rewrite Em.
    exists (2 ^ (52 + f64_e b) * 4096). replace (Z.max 0 (f64_e b)) with 0 by lia.
    replace (Z.max 0 (- f64_e b)) with (- f64_e b) by lia. change (2 ^ 0) with 1.
    replace (2 ^ (52 + f64_e b) * 4096 * 2 ^ (- f64_e b)) with (4096 * (2 ^ (52 + f64_e b) * 2 ^ (- f64_e b))) by ring.
    rewrite <- Z.pow_add_r by lia. replace (52 + f64_e b + - f64_e b) with 52 by lia. ring. }
  rewrite parse_format_f64 by assumption. f_equal.
  assert (Hm : 2 ^ 52 + 1 <= f64_m b) by lia.
  pose proof (f64_scaled_nonneg b) as Sn.
  assert (R : rounds_to (f64_num b * 10 ^ 12) (f64_den b) (f64_scaled b))
    by (apply round_half_even_spec; apply f64_den_pos).
  destruct R as (B & _ & _).
  assert (Hnum : f64_num b = f64_m b).
  { unfold f64_num. replace (Z.max 0 (f64_e b)) with 0 by lia. change (2 ^ 0) with 1. lia. }
  assert (Hden : f64_den b <= 549755813888 /\ 0 < f64_den b).
  { split; [|apply f64_den_pos]. unfold f64_den. destruct z13_40 as (_ & Z39 & _). rewrite <- Z39.
    apply Z.pow_le_mono_r; lia. }
  remember (f64_scaled b) as s eqn:Es.
  assert (Hs : 0 < s) by (rewrite Hnum, z1012, z52 in *; clear - B Hm Hden Rm; nia).
  assert (Hbin : in_binade s (10 ^ 12) (f64_e b + 52)).
  { assert (Lo : 2 ^ 52 * 10 ^ 12 <= s * f64_den b /\ s * f64_den b < 2 ^ 53 * 10 ^ 12).
    { rewrite Hnum in B. rewrite z1012, z52, z53 in *. clear - B Hm Rm Hden. lia. }
    unfold f64_den in Lo. replace (Z.max 0 (- f64_e b)) with (- f64_e b) in Lo by (clear - Hlo; lia).
    unfold in_binade. split.
    - apply (shift_le s (10 ^ 12) (f64_e b + 52) (- f64_e b)); [clear - Hlo; lia|clear; lia|].
      replace (- f64_e b + (f64_e b + 52)) with 52 by (clear; lia). rewrite Z.mul_comm. apply Lo.
    - apply (shift_lt s (10 ^ 12) (f64_e b + 52 + 1) (- f64_e b)); [clear - Hlo; lia|clear; lia|].
      replace (- f64_e b + (f64_e b + 52 + 1)) with 53 by (clear; lia). rewrite (Z.mul_comm (10 ^ 12)). apply Lo. }
  assert (El : log2_rat s (10 ^ 12) = f64_e b + 52).
  { apply (in_binade_unique s (10 ^ 12)); [assumption|reflexivity|apply log2_rat_spec; [assumption|reflexivity]|assumption]. }
  rewrite (f64_bits_split b Hb) at 2. unfold f64_of_rat. f_equal. f_equal.
  replace (s =? 0) with false by (clear - Hs; lia). cbv zeta. rewrite El.
  replace (Z.max (-1074) (f64_e b + 52 - 52)) with (f64_e b) by (clear - He; lia).
  assert (Er : round_half_even (s * 2 ^ Z.max 0 (- f64_e b)) (10 ^ 12 * 2 ^ Z.max 0 (f64_e b)) = f64_m b).
  { replace (Z.max 0 (f64_e b)) with 0 by (clear - Hlo; lia). change (2 ^ 0) with 1. rewrite Z.mul_1_r.
    apply (rounds_to_unique (s * 2 ^ Z.max 0 (- f64_e b)) (10 ^ 12)); [reflexivity|apply round_half_even_spec; reflexivity|].
    fold (f64_den b). rewrite Hnum in B. unfold rounds_to. rewrite z1012 in *.
    clear - B Hden. repeat split; intros; lia. }
  rewrite Er. rewrite <- f64_me_bits. apply Z.min_l.
  unfold f64_finite, f64_exp in Hf. unfold inf_bits. rewrite z52 in *. clear - Hf. lia.
Qed.

(** * Stability: what has been read from a text file is written back as the same text *)

Lemma decimal_stable_small : forall neg s o, 0 <= s <= 8192 * 10 ^ 12 ->
  parse_f64 (format_f64 (f64_of_rat neg s (10 ^ 12))) o = Ok (f64_of_rat neg s (10 ^ 12)).
Proof.
  intros neg s o' [Sn Su].
  assert (Zero : forall neg, parse_f64 (format_f64 (sign_bit neg + 0)%N) o' = Ok (sign_bit neg + 0)%N)
    by (intros []; reflexivity).
  destruct (Z.eq_dec s 0) as [->|Ns]; [apply Zero|].
  assert (Hs : 0 < s) by (clear - Ns Sn; lia).
  destruct (f64_of_rat_shape neg s (10 ^ 12) Hs ltac:(reflexivity)) as (e & q & He & Hq & Hnorm & Ee & Hr & Hy).
  pose proof (log2_rat_spec s (10 ^ 12) Hs ltac:(reflexivity)) as [L U].
  assert (Hk : log2_rat s (10 ^ 12) <= 13).
  { destruct (Z_le_gt_dec (log2_rat s (10 ^ 12)) 13) as [|G]; [assumption|exfalso].
    set (k := log2_rat s (10 ^ 12)) in *. clearbody k. clear - L G Su Hs.
    apply (shift_le s (10 ^ 12) k 0) in L; [|lia|lia].
    assert (2 ^ 14 <= 2 ^ (0 + k)) by (apply Z.pow_le_mono_r; lia).
    change (2 ^ 14) with 16384 in H. change (2 ^ 0) with 1 in L. rewrite z1012 in *. nia. }
  assert (Heu : e <= -39) by (clear - Ee Hk; lia).
  assert (Hinf : (e + 1074) * 2 ^ 52 + q < inf_bits).
  { unfold inf_bits. rewrite z52, z53 in *. clear - Heu Hq. lia. }
  rewrite Z.min_l in Hy by (clear - Hinf; lia).
  destruct (f64_value_mk neg e q He Hq Hnorm Hinf) as (Hb & Hf & Hn & Hv).
  rewrite <- Hy in Hb, Hf, Hn, Hv.
  destruct (Z.eq_dec s (8192 * 10 ^ 12)) as [Es|Nes].
  { subst s. apply exact_4096; [assumption|assumption|].
    assert (Ey : f64_of_rat neg (8192 * 10 ^ 12) (10 ^ 12) = (sign_bit neg + 4665729213955833856)%N)
      by (destruct neg; vm_compute; reflexivity).
    rewrite Ey. exists (8192 * 4096). destruct neg; vm_compute; reflexivity. }
  (* now s / 10^12 < 8192, hence e <= -40 and the rounding error is below half a unit of 10^-12 *)
  assert (Hk12 : log2_rat s (10 ^ 12) <= 12).
  { destruct (Z_le_gt_dec (log2_rat s (10 ^ 12)) 12) as [|G]; [assumption|exfalso].
    set (k := log2_rat s (10 ^ 12)) in *. clearbody k. clear - L G Su Nes Hs.
    apply (shift_le s (10 ^ 12) k 0) in L; [|lia|lia].
    assert (2 ^ 13 <= 2 ^ (0 + k)) by (apply Z.pow_le_mono_r; lia).
    change (2 ^ 13) with 8192 in H. change (2 ^ 0) with 1 in L. rewrite z1012 in *. nia. }
  assert (He40 : e <= -40) by (clear - Ee Hk12; lia).
  set (y := f64_of_rat neg s (10 ^ 12)) in *.
  assert (Sy : f64_scaled y = s).
  { unfold f64_scaled.
    replace (Z.max 0 e) with 0 in * by (clear - He40; lia).
    replace (Z.max 0 (- e)) with (- e) in * by (clear - He40; lia). change (2 ^ 0) with 1 in *.
    rewrite !Z.mul_1_r in *.
    assert (P : 1099511627776 <= 2 ^ (- e)).
    { change 1099511627776 with (2 ^ 40). apply Z.pow_le_mono_r; clear - He40; lia. }
    rewrite (round_ratio (f64_num y * 10 ^ 12) (f64_den y) (q * 10 ^ 12) (2 ^ (- e))).
    - apply (rounds_to_unique (q * 10 ^ 12) (2 ^ (- e))); [clear - P; lia|apply round_half_even_spec; clear - P; lia|].
      destruct Hr as (B & _ & _). unfold rounds_to. rewrite z1012 in *. clear - B P.
      generalize dependent (2 ^ (- e)). intros p B P. repeat split; intros; lia.
    - apply f64_den_pos.
    - clear - P; lia.
    - replace (f64_num y * 10 ^ 12 * 2 ^ (- e)) with (f64_num y * 2 ^ (- e) * 10 ^ 12) by ring. rewrite Hv. ring. }
  rewrite parse_format_f64 by assumption. rewrite Sy, Hn. reflexivity.
Qed.


(** A double is read back unchanged exactly when it is the double nearest to a decimal
    number with twelve fraction digits. *)
Lemma decimal_stable : forall neg s o, 0 <= s -> f64_finite (f64_of_rat neg s (10 ^ 12)) = true ->
  parse_f64 (format_f64 (f64_of_rat neg s (10 ^ 12))) o = Ok (f64_of_rat neg s (10 ^ 12)).
Proof.
  intros neg s o Hs Hfin.
  destruct (Z_le_gt_dec s (8192 * 10 ^ 12)) as [L|G]; [apply decimal_stable_small; lia|].
  assert (Hp : 0 < s) by (rewrite z1012 in G; clear - G; lia).
  destruct (f64_of_rat_shape neg s (10 ^ 12) Hp ltac:(reflexivity)) as (e & q & He & Hq & Hnorm & Ee & Hr & Hy).
  pose proof (log2_rat_spec s (10 ^ 12) Hp ltac:(reflexivity)) as [L U].
  assert (Hk : 13 <= log2_rat s (10 ^ 12)).
  { destruct (Z_le_gt_dec 13 (log2_rat s (10 ^ 12))) as [|G']; [assumption|exfalso].
    set (k := log2_rat s (10 ^ 12)) in *. clearbody k. clear - U G G' Hp.
    destruct (Z_le_gt_dec 0 (k + 1)) as [P|Q].
    - apply (shift_lt s (10 ^ 12) (k + 1) 0) in U; [|lia|lia].
      assert (2 ^ (0 + (k + 1)) <= 2 ^ 13) by (apply Z.pow_le_mono_r; lia).
      change (2 ^ 13) with 8192 in H. change (2 ^ 0) with 1 in U. rewrite z1012 in *. nia.
    - replace (Z.max 0 (k + 1)) with 0 in U by lia. change (2 ^ 0) with 1 in U.
      assert (1 <= 2 ^ Z.max 0 (- (k + 1))) by (pose proof (pow2max_pos (- (k + 1))); lia).
      rewrite z1012 in *. nia. }
  assert (He39 : -39 <= e) by (clear - Ee Hk; lia).
  assert (Hnm : 2 ^ 52 <= q) by (destruct Hnorm as [A|A]; [exact A|exfalso; clear - A He39; lia]).
  assert (Hinf : (e + 1074) * 2 ^ 52 + q < inf_bits).
  { destruct (Z_lt_le_dec ((e + 1074) * 2 ^ 52 + q) inf_bits) as [|W]; [assumption|exfalso].
    rewrite Z.min_r in Hy by exact W. rewrite Hy in Hfin. clear - Hfin. destruct neg; discriminate Hfin. }
  rewrite Z.min_l in Hy by (clear - Hinf; lia).
  destruct (f64_value_mk neg e q He Hq Hnorm Hinf) as (Hb & Hf & Hn & _).
  assert (Ha : f64_abs_bits (f64_of_rat neg s (10 ^ 12)) = (e + 1074) * 2 ^ 52 + q).
  { rewrite Hy. apply f64_abs_mk. unfold inf_bits in Hinf. rewrite z63. rewrite z52 in *.
    clear - Hinf Hq He. lia. }
  rewrite <- Hy in Hb, Hf.
  apply exact_large; [assumption|assumption|].
  rewrite f64_me_bits in Ha. set (b := f64_of_rat neg s (10 ^ 12)) in *. clearbody b.
  pose proof (f64_m_range b) as Rm. pose proof (f64_m_normal b) as Nm.
  rewrite z52, z53 in *. clear - Ha Rm Nm Hnm Hq He39. lia.
Qed.

Lemma parse_format_iff : forall b o, is_f64 b = true -> f64_finite b = true ->
  (parse_f64 (format_f64 b) o = Ok b <->
   exists neg s, 0 <= s /\ b = f64_of_rat neg s (10 ^ 12)).
Proof.
  intros b o Hb Hf. split.
  - intros H. rewrite parse_format_f64 in H by assumption. injection H as H.
    exists (f64_neg b), (f64_scaled b). split; [apply f64_scaled_nonneg|congruence].
  - intros (neg & s & Hs & ->). apply decimal_stable; assumption.
Qed.

Lemma parse_format_stable : forall b o o', is_f64 b = true -> f64_finite b = true ->
  exists y, parse_f64 (format_f64 b) o = Ok y /\ parse_f64 (format_f64 y) o' = Ok y.
Proof.
  intros b o o' Hb Hf.
  destruct (Z_le_gt_dec (-39) (f64_e b)) as [He|He].
  { exists b. split; apply exact_large; assumption. }
  rewrite parse_format_f64 by assumption. eexists. split; [reflexivity|].
  apply decimal_stable_small. split; [apply f64_scaled_nonneg|].
  pose proof (f64_m_range b) as Rm.
  assert (R : rounds_to (f64_num b * 10 ^ 12) (f64_den b) (f64_scaled b))
    by (apply round_half_even_spec; apply f64_den_pos).
  eapply round_upper; [apply f64_den_pos|exact R|].
  assert (f64_num b < 8192 * f64_den b); [|rewrite z1012; clear - H; lia].
  unfold f64_num, f64_den. replace (Z.max 0 (f64_e b)) with 0 by (clear - He; lia).
  replace (Z.max 0 (- f64_e b)) with (- f64_e b) by (clear - He; lia). change (2 ^ 0) with 1.
  change 8192 with (2 ^ 13). rewrite <- Z.pow_add_r by (clear - He; lia).
  rewrite Z.mul_1_r. eapply Z.lt_le_trans; [apply Rm|]. apply Z.pow_le_mono_r; clear - He; lia.
Qed.

(** * Integers *)

(** Integers below 2^53 are represented exactly. *)
Lemma f64_of_Z_exact : forall neg n, 0 <= n < 2 ^ 53 ->
  let b := f64_of_rat neg n 1 in
  is_f64 b = true /\ f64_finite b = true /\ f64_neg b = neg /\ f64_num b = n * f64_den b.
Proof.
  intros neg n Hn. destruct (Z.eq_dec n 0) as [->|N0]; [destruct neg; vm_compute; auto|].
  assert (Hp : 0 < n) by lia.
  destruct (f64_of_rat_shape neg n 1 Hp ltac:(lia)) as (e & q & He & Hq & Hnorm & Ee & Hr & Hy).
  pose proof (log2_rat_spec n 1 Hp ltac:(lia)) as [L U].
  assert (Hk : log2_rat n 1 <= 52).
  { destruct (Z_le_gt_dec (log2_rat n 1) 52) as [|G]; [assumption|exfalso].
    set (k := log2_rat n 1) in *. clearbody k. clear - L G Hn.
    apply (shift_le n 1 k 0) in L; [|lia|lia].
    assert (2 ^ 53 <= 2 ^ (0 + k)) by (apply Z.pow_le_mono_r; lia). change (2 ^ 0) with 1 in L. lia. }
  assert (He0 : e <= 0) by (clear - Ee Hk; lia).
  replace (Z.max 0 e) with 0 in Hr by (clear - He0; lia).
  replace (Z.max 0 (- e)) with (- e) in Hr by (clear - He0; lia). change (2 ^ 0) with 1 in Hr.
  assert (Eq : q = n * 2 ^ (- e)).
  { apply (rounds_to_unique (n * 2 ^ (- e)) (1 * 1)); [lia|exact Hr|]. 
    generalize (n * 2 ^ (- e)). clear. intros v. unfold rounds_to. repeat split; intros; lia. }
  assert (Hinf : (e + 1074) * 2 ^ 52 + q < inf_bits).
  { unfold inf_bits. rewrite z52, z53 in *. clear - He0 Hq. lia. }
  rewrite Z.min_l in Hy by (clear - Hinf; lia).
  destruct (f64_value_mk neg e q He Hq Hnorm Hinf) as (Hb & Hf & Hng & Hv).
  rewrite <- Hy in Hb, Hf, Hng, Hv. cbv zeta. repeat split; try assumption.
  replace (Z.max 0 e) with 0 in Hv by (clear - He0; lia).
  replace (Z.max 0 (- e)) with (- e) in Hv by (clear - He0; lia). change (2 ^ 0) with 1 in Hv.
  rewrite Eq in Hv. assert (P : 0 < 2 ^ (- e)) by (apply pow2_pos; clear - He0; lia).
  clear - P Hv. nia.
Qed.

Lemma f64_from_str_int : forall z, f64_from_str (show_int z) = Some (f64_of_rat (z <? 0) (Z.abs z) 1).
Proof.
  assert (G : forall (neg : bool) n, f64_from_str ((if neg then [45%N] else []) ++ show_dec n) = Some (f64_of_rat neg (Z.of_N n) 1)).
  { intros neg n. unfold f64_from_str. rewrite show_dec_dchar.
    destruct (digits_first n) as (d & t & Ed & Hd).
    assert (Hsign : take_sign ((if neg then [45%N] else []) ++ map dchar (digits 10 n)) = (neg, map dchar (digits 10 n))).
    { destruct neg; [reflexivity|]. rewrite Ed. cbn [map app take_sign].
      replace (dchar d =? 45)%N with false by (unfold dchar; lia). replace (dchar d =? 43)%N with false by (unfold dchar; lia). reflexivity. }
    rewrite Hsign. cbv iota beta zeta.
    assert (Hlow : exists t', map to_lower (map dchar (digits 10 n)) = (d + 48)%N :: t').
    { rewrite Ed. cbn [map app]. eexists. f_equal. unfold to_lower, dchar.
      replace ((65 <=? d + 48)%N && (d + 48 <=? 90)%N) with false by lia. reflexivity. }
    destruct Hlow as (t' & Hlow). rewrite Hlow.
    assert (NS : forall c u, (c =? d + 48)%N = false -> seqb ((d + 48)%N :: t') (c :: u) = false).
    { intros c u Hc. cbn [seqb]. rewrite N.eqb_sym, Hc. reflexivity. }
    change (str "inf") with (105%N :: str "nf"). change (str "infinity") with (105%N :: str "nfinity").
    change (str "nan") with (110%N :: str "an"). rewrite !NS by lia. cbn [orb].
    rewrite <- (app_nil_r (map dchar (digits 10 n))). rewrite span_digits_map; [|apply digits_range; lia|exact I].
    rewrite app_nil_r. rewrite Ed at 1. cbn [parse_exponent]. cbv zeta. cbn [length].
    change (0 - Z.of_nat 0) with 0. change (Z.max 0 0) with 0. change (Z.max 0 (- 0)) with 0. change (10 ^ 0) with 1.
    rewrite Z.mul_1_r. rewrite <- Ed. rewrite horner_digits. reflexivity. }
  intros z. destruct z as [|p|p].
  - apply (G false 0%N).
  - apply (G false (Npos p)).
  - apply (G true (Npos p)).
Qed.

Lemma f64_to_int_of_Z : forall lo hi z, lo <= z <= hi -> Z.abs z < 2 ^ 53 ->
  f64_to_int_sat lo hi (f64_of_Z z) = z.
Proof.
  intros lo hi z H Hz. unfold f64_of_Z, f64_to_int_sat.
  destruct (f64_of_Z_exact (z <? 0) (Z.abs z) ltac:(lia)) as (_ & Hf & Hn & Hv).
  rewrite Hf, Hn, Hv. rewrite Z.div_mul by (pose proof (f64_den_pos (f64_of_rat (z <? 0) (Z.abs z) 1)); lia).
  destruct (z <? 0) eqn:E; lia.
Qed.

Lemma parse_i16_show : forall a z o, is_i16 z = true -> Forall (fun c => is_white c = true) a ->
  parse_i16 (a ++ show_int z) o = Ok z.
Proof.
  intros a z o Hz Ha. unfold parse_i16. rewrite <- (app_nil_r (show_int z)).
  rewrite trim_surround; [|assumption|constructor]. rewrite trim_id by apply show_int_nonwhite.
  rewrite f64_from_str_int. f_equal. unfold f64_as_i16. unfold is_i16 in Hz.
  apply f64_to_int_of_Z; [lia|]. rewrite z53. lia.
Qed.

(** Integral and dyadic doubles survive text: see [exact_4096]. *)
Lemma f64_of_Z_text : forall z o, Z.abs z < 2 ^ 53 -> parse_f64 (format_f64 (f64_of_Z z)) o = Ok (f64_of_Z z).
Proof.
  intros z o Hz. destruct (f64_of_Z_exact (z <? 0) (Z.abs z) ltac:(lia)) as (Hb & Hf & Hn & Hv).
  apply exact_4096; [assumption|assumption|]. exists (Z.abs z * 4096). unfold f64_of_Z. rewrite Hv. lia.
Qed.

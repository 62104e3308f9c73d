(** Lemmas for C50. *)
From Coq Require Import QArith Qabs Lqa Lia.
From Verif Require Import Base F64Model F64Proofs F64Spec F64SpecProofs DateModel.
Open Scope Z_scope.
Ltac Zify.zify_post_hook ::= Z.div_mod_to_equations.
Set Default Goal Selector "!".

(** * Rounding errors *)

Lemma of_rat_finite : forall neg n d, 0 < n -> 0 < d -> n < d * 2 ^ 100 -> f64_finite (f64_of_rat neg n d) = true.
Proof.
  intros neg n d Hn Hd H.
  destruct (f64_of_rat_shape neg n d Hn Hd) as (e & q & He & Hq & _ & Ee & _ & E).
  pose proof (log2_rat_spec n d Hn Hd) as [L _]. set (k := log2_rat n d) in *. clearbody k.
  assert (K : k <= 100).
  { destruct (Z_le_gt_dec k 100) as [|G]; [assumption|]. exfalso. replace (Z.max 0 k) with k in L by lia.
    replace (Z.max 0 (- k)) with 0 in L by lia. change (2 ^ 0) with 1 in L.
    assert (2 ^ 100 <= 2 ^ k) by (apply Z.pow_le_mono_r; lia). nia. }
  rewrite E. assert (M : (e + 1074) * 2 ^ 52 + q < inf_bits). { unfold inf_bits. rewrite z52, z53 in *. lia. }
  rewrite Z.min_l by lia. unfold f64_finite, f64_exp. rewrite f64_abs_mk.
  - unfold inf_bits in M. rewrite z52, z53 in *. lia.
  - split; [rewrite z52; lia|]. eapply Z.lt_trans; [exact M|]. reflexivity.
Qed.

Lemma of_rat_error : forall neg n d, 0 < n -> 0 < d -> f64_finite (f64_of_rat neg n d) = true ->
  let b := f64_of_rat neg n d in
  2 ^ 60 * (2 ^ 53 * Z.abs (f64_num b * d - n * f64_den b)) <= 2 ^ 60 * (n * f64_den b) + 2 ^ 53 * (d * f64_den b).
Proof.
  intros neg n d Hn Hd Hf b. subst b.
  destruct (f64_of_rat_value neg n d Hn Hd Hf) as (e & q & Ee & Hq & Hnorm & Hr & Hv).
  pose proof (f64_den_pos (f64_of_rat neg n d)) as DP.
  set (num := f64_num _) in *. set (den := f64_den _) in *. clearbody num den.
  pose proof (log2_rat_spec n d Hn Hd) as [L _]. set (k := log2_rat n d) in *. clearbody k.
  destruct Hr as [Hr _].
  pose proof (pow2max_pos (- e)) as PA. pose proof (pow2max_pos e) as PB.
  assert (Err : 2 * Z.abs (n * 2 ^ Z.max 0 (- e) - q * (d * 2 ^ Z.max 0 e)) <= d * 2 ^ Z.max 0 e) by lia.
  assert (Scaled : 2 ^ Z.max 0 (- e) * Z.abs (num * d - n * den) = den * Z.abs (n * 2 ^ Z.max 0 (- e) - q * (d * 2 ^ Z.max 0 e))).
  { rewrite <- (Z.abs_eq (2 ^ Z.max 0 (- e))) at 1 by lia. rewrite <- (Z.abs_eq den) at 2 by lia. rewrite <- !Z.abs_mul.
    rewrite <- Z.abs_opp. f_equal.
    replace (- (2 ^ Z.max 0 (- e) * (num * d - n * den))) with (den * n * 2 ^ Z.max 0 (- e) - (num * 2 ^ Z.max 0 (- e)) * d) by ring.
    rewrite Hv. ring. }
  set (E := Z.abs (n * 2 ^ Z.max 0 (- e) - q * (d * 2 ^ Z.max 0 e))) in *.
  set (X := Z.abs (num * d - n * den)) in *.
  assert (HE : 0 <= E) by apply Z.abs_nonneg. assert (HX : 0 <= X) by apply Z.abs_nonneg. clearbody E X.
  destruct (Z_le_gt_dec (-1074) (k - 52)) as [Hk|Hk].
  - assert (e = k - 52) as K by (clear - Ee Hk; lia). clear Ee.
    assert (Big : 2 ^ 52 * d * 2 ^ Z.max 0 e <= n * 2 ^ Z.max 0 (- e)).
    { pose (s := Z.abs k + 1126). assert (S1 : 0 <= s) by (subst s; lia). assert (S2 : 0 <= s + k) by (subst s; lia).
      assert (S3 : 0 <= s + e) by (subst s; lia).
      apply (shift_le n d k s S1 S2) in L. apply (shift_le n (2 ^ 52 * d) e s S1 S3).
      replace (2 ^ 52 * d * 2 ^ (s + e)) with (d * (2 ^ 52 * 2 ^ (s + e))) by ring.
      rewrite <- Z.pow_add_r by lia. replace (52 + (s + e)) with (s + k) by lia. exact L. }
    set (A := 2 ^ Z.max 0 (- e)) in *. set (B := 2 ^ Z.max 0 e) in *. clearbody A B. clear K Hr Hv Hnorm Hq Hf L Hk.
    enough (G : 2 ^ 53 * X <= n * den).
    { assert (0 < d * den) by (apply Z.mul_pos_pos; assumption). change (2 ^ 60) with 1152921504606846976. rewrite z53 in *. lia. }
    apply (Z.mul_le_mono_pos_l _ _ A PA). replace (A * (2 ^ 53 * X)) with (2 ^ 53 * (A * X)) by ring. rewrite Scaled.
    rewrite z53, z52 in *. apply Z.le_trans with (den * (4503599627370496 * (d * B))).
    + replace (9007199254740992 * (den * E)) with (den * (4503599627370496 * (2 * E))) by ring.
      apply Z.mul_le_mono_nonneg_l; [lia|]. lia.
    + replace (A * (n * den)) with (den * (n * A)) by ring. apply Z.mul_le_mono_nonneg_l; lia.
  - assert (e = -1074) as -> by (clear - Ee Hk; lia). change (Z.max 0 (-1074)) with 0 in *. change (2 ^ 0) with 1 in *.
    change (Z.max 0 (- -1074)) with 1074 in *.
    assert (P : 2 ^ 60 <= 2 ^ 1074) by (apply Z.pow_le_mono_r; lia).
    set (A := 2 ^ 1074) in *. clearbody A. clear Hr Hv Hnorm Hq Hf L Hk Ee.
    enough (G : 2 ^ 60 * X <= d * den).
    { assert (0 < n * den) by (apply Z.mul_pos_pos; assumption). change (2 ^ 60) with 1152921504606846976 in *. rewrite z53 in *. lia. }
    apply Z.le_trans with (A * X); [apply Z.mul_le_mono_nonneg_r; assumption|]. rewrite Scaled. nia.
Qed.

(** * Signed values *)
Definition qv (b : N) : Q := f64_snum b # Z.to_pos (f64_den b).

Lemma qv_agree : forall b, is_f64 b = true -> (qv b == double_value b)%Q.
Proof.
  intros b H. apply is_f64_lt in H. unfold qv, f64_snum, double_value. rewrite (neg_agree b H).
  destruct (f64_neg b); [|symmetry; apply magnitude_agree; assumption].
  rewrite (magnitude_agree b H). reflexivity.
Qed.

Lemma srat_close : forall neg0 n d, 0 < d -> Z.abs n < d * 2 ^ 100 ->
  let b := f64_of_srat neg0 n d in
  is_f64 b = true /\ f64_finite b = true /\
  (Qabs (qv b - (n # Z.to_pos d)) <= Qabs (n # Z.to_pos d) * (1 # 9007199254740992) + (1 # 1152921504606846976))%Q.
Proof.
  intros neg0 n d Hd Hn. cbv zeta. unfold f64_of_srat. destruct (Z.eqb_spec n 0) as [->|N0].
  - split; [destruct neg0; reflexivity|]. split; [destruct neg0; reflexivity|].
    assert (Z1 : (qv (sign_bit neg0) == 0)%Q) by (destruct neg0; vm_compute; reflexivity).
    assert (Z2 : ((0 # Z.to_pos d) == 0)%Q) by reflexivity. rewrite Z1, Z2. vm_compute. discriminate.
  - assert (Pos : 0 < Z.abs n) by lia.
    pose proof (of_rat_finite (n <? 0) (Z.abs n) d Pos Hd Hn) as Fin.
    pose proof (of_rat_error (n <? 0) (Z.abs n) d Pos Hd Fin) as Err. cbv zeta in Err.
    destruct (f64_of_rat_neg (n <? 0) (Z.abs n) d ltac:(lia) Hd) as [Neg Is].
    split; [exact Is|]. split; [exact Fin|]. unfold qv, f64_snum. rewrite Neg.
    set (b := f64_of_rat (n <? 0) (Z.abs n) d) in *. pose proof (f64_den_pos b) as DP. clearbody b.
    set (num := f64_num b) in *. set (den := f64_den b) in *. clearbody num den. clear Fin Neg Is Hn b.
    assert (Q1 : (Qabs (((if (n <? 0)%Z then (- num)%Z else num) # Z.to_pos den) - (n # Z.to_pos d)) ==
                  (Z.abs (num * d - Z.abs n * den)) # (Z.to_pos den * Z.to_pos d))%Q).
    { unfold Qminus, Qplus, Qopp, Qabs; cbn [Qnum Qden]. rewrite !Z2Pos.id by assumption.
      unfold Qeq; cbn [Qnum Qden]. f_equal. destruct (Z.ltb_spec n 0) as [L|L].
      - rewrite (Z.abs_neq n) by lia. rewrite <- Z.abs_opp. f_equal. ring.
      - rewrite (Z.abs_eq n) by lia. f_equal. ring. }
    rewrite Q1. unfold Qabs at 1. cbn [Qnum Qden].
    unfold Qle, Qplus, Qmult; cbn [Qnum Qden]. rewrite !Pos2Z.inj_mul, !Z2Pos.id by assumption.
    change (2 ^ 60) with 1152921504606846976 in Err. rewrite z53 in Err.
    set (X := Z.abs (num * d - Z.abs n * den)) in *. clearbody X. set (m := Z.abs n) in *. clearbody m. clear N0 Q1 num.
    match goal with |- ?l <= ?r =>
      replace l with (1152921504606846976 * (9007199254740992 * X) * d) by ring;
      replace r with ((1152921504606846976 * (m * den) + 9007199254740992 * (d * den)) * d) by ring end.
    apply Z.mul_le_mono_nonneg_r; lia.
Qed.

Definition ulp_rel : Q := 1 # 9007199254740992.
Definition ulp_abs : Q := 1 # 1152921504606846976.
(** [b] is [x] up to the rounding of one operation. *)
Definition close (b : N) (x : Q) : Prop :=
  is_f64 b = true /\ f64_finite b = true /\ (Qabs (qv b - x) <= Qabs x * ulp_rel + ulp_abs)%Q.

Lemma Qabs_small : forall n d, 0 < d -> (Qabs (n # Z.to_pos d) < inject_Z (2 ^ 100))%Q -> Z.abs n < d * 2 ^ 100.
Proof.
  intros n d Hd H. unfold Qabs, Qlt, inject_Z in H. cbn [Qnum Qden] in H. rewrite Z2Pos.id in H by assumption. lia.
Qed.
Lemma close_wd : forall b x y, (x == y)%Q -> close b x -> close b y.
Proof. intros b x y E (A & B & C). split; [exact A|]. split; [exact B|]. rewrite <- E. exact C. Qed.

Lemma to_pos_mul : forall a b, 0 < a -> 0 < b -> Z.to_pos (a * b) = (Z.to_pos a * Z.to_pos b)%positive.
Proof. intros a b Ha Hb. apply Z2Pos.inj_mul; assumption. Qed.

Lemma finite_not_nan : forall a, f64_finite a = true -> f64_nan a = false.
Proof. intros a H. unfold f64_nan. rewrite H. reflexivity. Qed.

Lemma add_close : forall a b, f64_finite a = true -> f64_finite b = true -> (Qabs (qv a + qv b) < inject_Z (2 ^ 100))%Q ->
  close (f64_add a b) (qv a + qv b).
Proof.
  intros a b Ha Hb H. unfold f64_add. rewrite !finite_not_nan, Ha, Hb by assumption. cbn [orb andb].
  pose proof (f64_den_pos a) as Da. pose proof (f64_den_pos b) as Db.
  assert (E : (qv a + qv b == (f64_snum a * f64_den b + f64_snum b * f64_den a) # Z.to_pos (f64_den a * f64_den b))%Q).
  { unfold qv, Qplus, Qeq; cbn [Qnum Qden]. rewrite to_pos_mul, !Z2Pos.id by assumption. reflexivity. }
  eapply close_wd; [symmetry; exact E|]. rewrite E in H.
  apply srat_close; [apply Z.mul_pos_pos; assumption|]. apply Qabs_small; [apply Z.mul_pos_pos; assumption|exact H].
Qed.
Lemma mul_close : forall a k, f64_finite a = true -> (Qabs (qv a * inject_Z k) < inject_Z (2 ^ 100))%Q ->
  close (f64_mul_const a k) (qv a * inject_Z k).
Proof.
  intros a k Ha H. unfold f64_mul_const. rewrite Ha. pose proof (f64_den_pos a) as Da.
  assert (E : (qv a * inject_Z k == (f64_snum a * k) # Z.to_pos (f64_den a))%Q).
  { unfold qv, Qmult, Qeq, inject_Z; cbn [Qnum Qden]. rewrite Pos.mul_1_r. reflexivity. }
  eapply close_wd; [symmetry; exact E|]. rewrite E in H. apply srat_close; [assumption|]. apply Qabs_small; assumption.
Qed.
Lemma div_close : forall a k, f64_finite a = true -> (Qabs (qv a * (1 # k)) < inject_Z (2 ^ 100))%Q ->
  close (f64_div_const a (Zpos k)) (qv a * (1 # k)).
Proof.
  intros a k Ha H. unfold f64_div_const. rewrite Ha. pose proof (f64_den_pos a) as Da.
  assert (E : (qv a * (1 # k) == f64_snum a # Z.to_pos (f64_den a * Zpos k))%Q).
  { unfold qv, Qmult, Qeq; cbn [Qnum Qden]. rewrite to_pos_mul by (assumption || lia). cbn [Z.to_pos]. rewrite Z.mul_1_r. reflexivity. }
  eapply close_wd; [symmetry; exact E|]. rewrite E in H.
  apply srat_close; [lia|]. apply Qabs_small; [lia|exact H].
Qed.

Lemma abs_bounds : forall (a b : Q), (Qabs a <= b)%Q -> (- b <= a /\ a <= b)%Q.
Proof. intros a b H. apply Qabs_Qle_condition in H. exact H. Qed.
Lemma close_bounds : forall b x m, close b x -> (- m <= x)%Q -> (x <= m)%Q ->
  (x - (m * ulp_rel + ulp_abs) <= qv b /\ qv b <= x + (m * ulp_rel + ulp_abs))%Q.
Proof.
  intros b x m (_ & _ & C) L U.
  assert (A : (Qabs x <= m)%Q) by (apply Qabs_Qle_condition; split; assumption).
  assert (Qabs (qv b - x) <= m * ulp_rel + ulp_abs)%Q as D.
  { eapply Qle_trans; [exact C|]. apply Qplus_le_compat; [|apply Qle_refl]. apply Qmult_le_compat_r; [exact A|]. unfold ulp_rel. discriminate. }
  apply abs_bounds in D. split; lra.
Qed.
Lemma small_abs : forall x m, (- m <= x)%Q -> (x <= m)%Q -> (m < inject_Z (2 ^ 100))%Q -> (Qabs x < inject_Z (2 ^ 100))%Q.
Proof. intros x m L U M. eapply Qle_lt_trans; [apply Qabs_Qle_condition; split; eassumption|exact M]. Qed.

(** Truncation. *)
Lemma trunc_bounds : forall b lo hi, f64_finite b = true -> (inject_Z lo <= qv b)%Q -> (qv b <= inject_Z hi)%Q -> lo <= 0 <= hi ->
  let t := f64_to_int_sat lo hi b in
  (inject_Z t - 1 < qv b < inject_Z t + 1)%Q /\ ((0 <= qv b -> inject_Z t <= qv b) /\ (qv b <= 0 -> qv b <= inject_Z t))%Q.
Proof.
  intros b lo hi Hf L U R. cbv zeta. unfold f64_to_int_sat. rewrite Hf. unfold qv, f64_snum in *.
  pose proof (f64_den_pos b) as DP. pose proof (f64_num_nonneg b) as NN.
  set (num := f64_num b) in *. set (den := f64_den b) in *. clearbody num den.
  unfold Qle, Qlt, Qminus, Qplus, Qopp, inject_Z in *; cbn [Qnum Qden] in *.
  rewrite ?Pos.mul_1_l, ?Pos.mul_1_r, ?Z2Pos.id in * by assumption.
  pose proof (Z.div_mod num den ltac:(lia)) as E. pose proof (Z.mod_pos_bound num den DP) as B.
  set (q := num / den) in *. set (r := num mod den) in *. clearbody q r.
  assert (Q0 : 0 <= q) by nia. assert (Q1 : 0 <= den * q) by nia.
  destruct (f64_neg b).
  - assert (lo <= - q) by nia. assert (- q <= hi) by nia. rewrite Z.min_r, Z.max_r by lia. repeat split; intros; nia.
  - assert (lo <= q) by nia. assert (q <= hi) by nia. rewrite Z.min_r, Z.max_r by lia. repeat split; intros; nia.
Qed.

Lemma inj_lt : forall a b, (inject_Z a < inject_Z b)%Q -> a < b.
Proof. intros a b H. rewrite <- Zlt_Qlt in H. exact H. Qed.
Lemma inj_le : forall a b, (inject_Z a <= inject_Z b)%Q -> a <= b.
Proof. intros a b H. rewrite <- Zle_Qle in H. exact H. Qed.

Lemma opp_2415020 : f64_finite (f64_opp (f64_of_Z 2415020)) = true /\ (qv (f64_opp (f64_of_Z 2415020)) == -2415020)%Q.
Proof. split; vm_compute; reflexivity. Qed.

(** Reading: the result is the stored instant, to within the truncation to whole seconds. *)
Lemma as_datetime_accuracy : forall f, is_f64 f = true -> f64_finite f = true ->
  (-100000000 <= qv f)%Q -> ((qv f - 2415021) * 86400 <= 8212475865597)%Q ->
  exists r, as_datetime f = Ok r /\ 0 <= r /\
    ((qv f - 2415021) * 86400 - (1 # 10) <= inject_Z r)%Q /\
    (r = 0 \/ (inject_Z r <= (qv f - 2415021) * 86400 + (11 # 10))%Q).
Proof.
  intros f Hi Hf L U. unfold as_datetime.
  destruct (Z.eqb_spec (f64_abs_bits f) 0) as [E0|E0].
  { cbn [bind]. exists 0. split; [reflexivity|]. split; [lia|]. split; [|left; reflexivity].
    assert (Z0 : (qv f == 0)%Q).
    { unfold qv, f64_snum, f64_num, f64_m, f64_exp, f64_frac. rewrite E0. cbn. destruct (f64_neg f); reflexivity. }
    rewrite Z0. discriminate. }
  unfold f64_to_adjusted_duration, f64_sub. destruct opp_2415020 as [Of Ov].
  set (k := f64_opp (f64_of_Z 2415020)) in *. clearbody k.
  assert (E1 : (qv f + qv k == qv f + -2415020)%Q) by (rewrite Ov; reflexivity).
  pose proof (add_close f k Hf Of) as C1. set (D := f64_add f k) in *. clearbody D.
  assert (B1 : (- (200000000) <= qv f + -2415020)%Q) by lra. assert (B2 : (qv f + -2415020 <= 200000000)%Q) by lra.
  rewrite E1 in C1 at 1. specialize (C1 (small_abs _ _ B1 B2 ltac:(reflexivity))).
  pose proof (close_wd _ _ _ E1 C1) as C1'.
  pose proof (close_bounds _ _ _ C1' B1 B2) as [D1 D2]. destruct C1' as (_ & Df & _). clear C1.
  unfold ulp_rel, ulp_abs in D1, D2.
  assert (M1 : (- (20000000000000) <= qv D * inject_Z 86400)%Q) by (change (inject_Z 86400) with 86400%Q; lra).
  assert (M2 : (qv D * inject_Z 86400 <= 20000000000000)%Q) by (change (inject_Z 86400) with 86400%Q; lra).
  pose proof (mul_close D 86400 Df (small_abs _ _ M1 M2 ltac:(reflexivity))) as C2.
  set (S := f64_mul_const D 86400) in *. clearbody S.
  pose proof (close_bounds _ _ _ C2 M1 M2) as [S1 S2]. destruct C2 as (_ & Sf & _). unfold ulp_rel, ulp_abs in S1, S2.
  change (inject_Z 86400) with 86400%Q in *.
  set (x := qv f) in *. clearbody x. set (d := qv D) in *. clearbody d.
  assert (SL : (inject_Z (-9223372036854775808) <= qv S)%Q) by (change (inject_Z (-9223372036854775808)) with (-9223372036854775808)%Q; lra).
  assert (SU : (qv S <= inject_Z 9223372036854775807)%Q) by (change (inject_Z 9223372036854775807) with 9223372036854775807%Q; lra).
  pose proof (trunc_bounds S _ _ Sf SL SU ltac:(lia)) as [[T1 T2] [T3 T4]].
  set (t := f64_to_int_sat (-9223372036854775808) 9223372036854775807 S) in *. clearbody t.
  set (z := qv S) in *. clearbody z.
  assert (R1 : t < 8212475865597 + 86400 + 2).
  { apply inj_lt. change (inject_Z (8212475865597 + 86400 + 2)) with 8212475951999%Q. lra. }
  assert (R2 : -20000000000010 < t) by (apply inj_lt; change (inject_Z (-20000000000010)) with (-20000000000010)%Q; lra).
  unfold checked_i64, is_i64. replace (_ && _) with true by lia. cbn [bind]. replace (_ && _) with true by lia. cbn [bind].
  unfold chrono_seconds. replace (_ <=? _) with true by lia. cbn [bind].
  assert (I : (inject_Z (t - 86400 + 1) == inject_Z t - 86399)%Q) by (replace (t - 86400 + 1) with (t + (-86399)) by lia; rewrite inject_Z_plus; change (inject_Z (-86399)) with (-86399)%Q; lra).
  destruct (Z.ltb_spec 0 (t - 86400 + 1)) as [G|G].
  - assert (P0 : (0 <= inject_Z t)%Q) by (change 0%Q with (inject_Z 0); rewrite <- Zle_Qle; lia).
    assert (P1 : (86400 <= inject_Z t)%Q) by (change 86400%Q with (inject_Z 86400); rewrite <- Zle_Qle; lia).
    assert (P2 : (0 <= z)%Q) by lra. specialize (T3 P2).
    assert (TT : t <= 8212475865597 + 86400).
    { apply Z.lt_succ_r. apply inj_lt. change (inject_Z (Z.succ (8212475865597 + 86400))) with 8212475951998%Q. lra. }
    unfold chrono_add, max_date. replace (_ <=? _) with true by lia.
    eexists. split; [reflexivity|]. split; [lia|]. rewrite I. split; [lra|right; lra].
  - unfold chrono_add, max_date. replace (_ <=? _) with true by lia. exists 0. split; [reflexivity|]. split; [lia|]. split; [|left; reflexivity].
    assert (P1 : (inject_Z t <= 86399)%Q) by (change 86399%Q with (inject_Z 86399); rewrite <- Zle_Qle; lia).
    change (inject_Z 0) with 0%Q. lra.
Qed.

(** Writing. *)
Lemma of_Z_exact : forall z, Z.abs z < 2 ^ 53 -> is_f64 (f64_of_Z z) = true /\ f64_finite (f64_of_Z z) = true /\ (qv (f64_of_Z z) == inject_Z z)%Q.
Proof.
  intros z H. unfold f64_of_Z. destruct (f64_of_Z_exact (z <? 0) (Z.abs z) ltac:(lia)) as (A & B & C & D).
  split; [exact A|]. split; [exact B|]. unfold qv, f64_snum. rewrite C, D. pose proof (f64_den_pos (f64_of_rat (z <? 0) (Z.abs z) 1)) as P.
  unfold Qeq, inject_Z; cbn [Qnum Qden]. rewrite Z2Pos.id by assumption. destruct (Z.ltb_spec z 0); lia.
Qed.

Lemma as_double_accuracy : forall s, Z.abs s <= 8212475865597 ->
  is_f64 (as_double s) = true /\ f64_finite (as_double s) = true /\
  (Qabs ((qv (as_double s) - 2415021) * 86400 - inject_Z s) <= 1 # 200)%Q.
Proof.
  intros s Hs. unfold as_double.
  destruct (of_Z_exact s ltac:(rewrite z53; lia)) as (A1 & A2 & A3).
  destruct (of_Z_exact 2415021 ltac:(reflexivity)) as (K1 & K2 & K3). change (inject_Z 2415021) with 2415021%Q in K3.
  assert (BL : (-8212475865597 <= inject_Z s)%Q) by (change (-8212475865597)%Q with (inject_Z (-8212475865597)); rewrite <- Zle_Qle; lia).
  assert (BU : (inject_Z s <= 8212475865597)%Q) by (change (8212475865597)%Q with (inject_Z 8212475865597); rewrite <- Zle_Qle; lia).
  set (a := f64_of_Z s) in *. clearbody a. set (x := inject_Z s) in *. clearbody x. rewrite <- A3 in BL, BU |- *. clear A3 x.
  set (x := qv a) in *.
  assert (L1 : (- (350000000000) <= x * (1 # 24))%Q) by lra. assert (U1 : (x * (1 # 24) <= 350000000000)%Q) by lra.
  pose proof (div_close a 24 A2 (small_abs _ _ L1 U1 ltac:(reflexivity))) as C1. fold x in C1.
  pose proof (close_bounds _ _ _ C1 L1 U1) as [D1 D1']. destruct C1 as (_ & F1 & _). set (b := f64_div_const a 24) in *. clearbody b. clearbody x.
  set (y := qv b) in *. unfold ulp_rel, ulp_abs in D1, D1'.
  assert (L2 : (- (6000000000) <= y * (1 # 60))%Q) by lra. assert (U2 : (y * (1 # 60) <= 6000000000)%Q) by lra.
  pose proof (div_close b 60 F1 (small_abs _ _ L2 U2 ltac:(reflexivity))) as C2. fold y in C2.
  pose proof (close_bounds _ _ _ C2 L2 U2) as [D2 D2']. destruct C2 as (_ & F2 & _). set (c := f64_div_const b 60) in *. clearbody c. clearbody y.
  set (z := qv c) in *. unfold ulp_rel, ulp_abs in D2, D2'.
  assert (L3 : (- (100000000) <= z * (1 # 60))%Q) by lra. assert (U3 : (z * (1 # 60) <= 100000000)%Q) by lra.
  pose proof (div_close c 60 F2 (small_abs _ _ L3 U3 ltac:(reflexivity))) as C3. fold z in C3.
  pose proof (close_bounds _ _ _ C3 L3 U3) as [D3 D3']. destruct C3 as (_ & F3 & _). set (d := f64_div_const c 60) in *. clearbody d. clearbody z.
  set (w := qv d) in *. unfold ulp_rel, ulp_abs in D3, D3'.
  assert (L4 : (- (103000000) <= w + 2415021)%Q) by lra. assert (U4 : (w + 2415021 <= 103000000)%Q) by lra.
  pose proof (add_close d (f64_of_Z 2415021) F3 K2) as C4. fold w in C4.
  set (e := f64_add d (f64_of_Z 2415021)) in *. clearbody e. set (k := qv (f64_of_Z 2415021)) in *. clearbody k.
  assert (E4 : (w + k == w + 2415021)%Q) by (rewrite K3; reflexivity).
  rewrite E4 in C4 at 1. specialize (C4 (small_abs _ _ L4 U4 ltac:(reflexivity))).
  pose proof (close_wd _ _ _ E4 C4) as C4'. clear C4.
  pose proof (close_bounds _ _ _ C4' L4 U4) as [D4 D4']. destruct C4' as (I4 & F4 & _). clearbody w. unfold ulp_rel, ulp_abs in D4, D4'.
  split; [exact I4|]. split; [exact F4|]. apply Qabs_Qle_condition. split; lra.
Qed.

Lemma date_roundtrip : forall s, 0 <= s <= max_date - 3 ->
  exists r, as_datetime (as_double s) = Ok r /\ s <= r <= s + 1.
Proof.
  intros s Hs. unfold max_date in Hs. destruct (as_double_accuracy s ltac:(lia)) as (I & F & A). apply abs_bounds in A. destruct A as [A1 A2].
  assert (S1 : (0 <= inject_Z s)%Q) by (change 0%Q with (inject_Z 0); rewrite <- Zle_Qle; lia).
  assert (S2 : (inject_Z s <= 8212475865596)%Q) by (change 8212475865596%Q with (inject_Z 8212475865596); rewrite <- Zle_Qle; lia).
  destruct (as_datetime_accuracy (as_double s) I F) as (r & E & R0 & R1 & R2); [lra|lra|].
  exists r. split; [exact E|]. split.
  - apply Z.lt_succ_r. apply inj_lt. unfold Z.succ. rewrite inject_Z_plus. change (inject_Z 1) with 1%Q. lra.
  - destruct R2 as [->|R2]; [lia|]. apply Z.lt_succ_r. apply inj_lt. unfold Z.succ. rewrite !inject_Z_plus. change (inject_Z 1) with 1%Q. lra.
Qed.

Lemma date_before_1900 : forall s, - max_date + 3 <= s < 0 -> as_datetime (as_double s) = Ok 0.
Proof.
  intros s Hs. unfold max_date in Hs. destruct (as_double_accuracy s ltac:(lia)) as (I & F & A). apply abs_bounds in A. destruct A as [A1 A2].
  assert (S1 : (inject_Z s <= -1)%Q) by (change (-1)%Q with (inject_Z (-1)); rewrite <- Zle_Qle; lia).
  assert (S2 : (-8212475865596 <= inject_Z s)%Q) by (change (-8212475865596)%Q with (inject_Z (-8212475865596)); rewrite <- Zle_Qle; lia).
  destruct (as_datetime_accuracy (as_double s) I F) as (r & E & R0 & R1 & R2); [lra|lra|].
  rewrite E. f_equal. destruct R2 as [->|R2]; [reflexivity|].
  assert (r < 1) by (apply inj_lt; change (inject_Z 1) with 1%Q; lra). lia.
Qed.

Lemma duration_roundtrip : forall n, 0 <= n < 2 ^ 53 -> as_duration (duration_as_double n) = n.
Proof. intros n H. unfold as_duration, duration_as_double. apply f64_to_int_of_Z; [rewrite z53 in H; lia|lia]. Qed.

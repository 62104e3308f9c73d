(** Conversions to and from single precision against the rational semantics. *)
From Coq Require Import QArith Qabs Qpower Lqa.
From Verif Require Import Base TextModel F64Model F64Spec F64Proofs F64SpecProofs F32Model F32Spec F32Proofs.
Ltac Zify.zify_post_hook ::= Z.div_mod_to_equations.
Open Scope Z_scope.
Set Default Goal Selector "!".

Definition mag32 (b : N) : Q := f32_num b # Z.to_pos (f32_den b).
Lemma mag32_me b : (mag32 b == inject_Z (f32_m b) * (2 # 1) ^ f32_e b)%Q.
Proof. unfold mag32, f32_num, f32_den. symmetry. apply Qpower_2. Qed.
Lemma frac_eq a b c d : 0 < b -> 0 < d -> a * d = c * b -> (a # Z.to_pos b == c # Z.to_pos d)%Q.
Proof. intros Hb Hd H. unfold Qeq; cbn [Qnum Qden]. rewrite !Z2Pos.id by assumption. exact H. Qed.

(** Widening is exact. *)
Lemma widen_finite b : f32_finite b = true ->
  let y := f64_of_f32 b in is_f64 y = true /\ f64_finite y = true /\ f64_neg y = f32_neg b /\ f64_num y * f32_den b = f32_num b * f64_den y.
Proof.
  intros Hf y. unfold y, f64_of_f32. rewrite Hf. clear y. pose proof (f32_m_range b) as Rm. pose proof (f32_e_range b Hf) as Re.
  pose proof (f32_den_pos b) as Dp. rewrite z24 in Rm.
  destruct (Z.eq_dec (f32_m b) 0) as [M0|M0].
  - assert (N0 : f32_num b = 0) by (unfold f32_num; rewrite M0; reflexivity). rewrite N0. unfold f64_of_rat. change (0 =? 0) with true. cbv iota.
    assert (A : forall n, f64_abs_bits (sign_bit n + Z.to_N 0) = 0) by (intros n; apply f64_abs_mk; rewrite z63; clear; lia).
    split; [apply is_f64_mk; rewrite z63; clear; lia|]. split; [unfold f64_finite, f64_exp; rewrite A; reflexivity|].
    split; [apply f64_neg_mk; rewrite z63; clear; lia|]. unfold f64_num, f64_m, f64_exp, f64_frac. rewrite A. reflexivity.
  - set (m := f32_m b) in *. set (e := f32_e b) in *. set (l := Z.log2 m).
    assert (Hl : 0 <= l <= 23).
    { split; [apply Z.log2_nonneg|]. assert (l < 24); [|clear - H; lia]. apply Z.log2_lt_pow2; [clear - Rm M0; lia|]. change (2 ^ 24) with 16777216. clear - Rm; lia. }
    set (q := m * 2 ^ (52 - l)). set (e' := e - (52 - l)).
    pose proof (Z.log2_spec m ltac:(clear - Rm M0; lia)) as [L1 L2]. fold l in L1, L2.
    assert (P : 0 < 2 ^ (52 - l)) by (apply pow2_pos; clear - Hl; lia).
    assert (Q1 : 2 ^ 52 <= q).
    { unfold q. replace 52 with (l + (52 - l)) at 1 by lia. rewrite Z.pow_add_r by (clear - Hl; lia). apply Z.mul_le_mono_nonneg_r; [clear - P; lia|exact L1]. }
    assert (Q2 : q <= 2 ^ 53).
    { unfold q. replace 53 with (Z.succ l + (52 - l)) by lia. rewrite (Z.pow_add_r 2 (Z.succ l)) by (clear - Hl; lia). apply Z.mul_le_mono_nonneg_r; [clear - P; lia|clear - L2; lia]. }
    assert (E1 : -1074 <= e' <= 104) by (unfold e'; clear - Re Hl; lia).
    assert (I : (e' + 1074) * 2 ^ 52 + q < inf_bits) by (unfold inf_bits; rewrite z52, z53 in *; clear - E1 Q2; lia).
    destruct (f64_value_mk (f32_neg b) e' q ltac:(clear - E1; lia) ltac:(rewrite z52 in Q1; clear - Q1 Q2; lia) (or_introl Q1) I) as (B1 & B2 & B3 & B4).
    set (y := (sign_bit (f32_neg b) + Z.to_N ((e' + 1074) * 2 ^ 52 + q))%N) in *. clearbody y.
    assert (V : f64_num y * f32_den b = f32_num b * f64_den y).
    { pose proof (pow2max_pos (- e')) as P1. apply (Z.mul_cancel_r _ _ (2 ^ Z.max 0 (- e'))); [clear - P1; lia|].
      replace (f64_num y * f32_den b * 2 ^ Z.max 0 (- e')) with (f64_num y * 2 ^ Z.max 0 (- e') * f32_den b) by ring. rewrite B4.
      unfold f32_num, f32_den, q. fold m e.
      assert (X : 2 ^ (52 - l) * 2 ^ Z.max 0 e' * 2 ^ Z.max 0 (- e) = 2 ^ Z.max 0 e * 2 ^ Z.max 0 (- e')).
      { rewrite <- !Z.pow_add_r by (clear - Hl; lia). f_equal. unfold e'. clear. lia. }
      replace (m * 2 ^ (52 - l) * 2 ^ Z.max 0 e' * f64_den y * 2 ^ Z.max 0 (- e)) with (m * (2 ^ (52 - l) * 2 ^ Z.max 0 e' * 2 ^ Z.max 0 (- e)) * f64_den y) by ring. rewrite X. ring. }
    assert (E : f64_of_rat (f32_neg b) (f32_num b) (f32_den b) = y).
    { rewrite <- B3. apply f64_of_rat_exact; try assumption; [apply f32_num_nonneg|]. symmetry. exact V. }
    rewrite E. auto.
Qed.
Lemma widen_magnitude b : f32_finite b = true -> (magnitude (f64_of_f32 b) == mag32 b)%Q.
Proof.
  intros H. destruct (widen_finite b H) as (B1 & B2 & B3 & B4). rewrite magnitude_agree by (apply is_f64_lt; exact B1). apply frac_eq; [apply f64_den_pos|apply f32_den_pos|exact B4].
Qed.

(** Singles are the values of the finite patterns. *)
Lemma single_opp q : single q -> single (- q).
Proof.
  intros (m & e & Hm & He & E). exists (- m), e. split; [lia|]. split; [exact He|]. rewrite E. rewrite inject_Z_opp. ring.
Qed.
Lemma mag32_single b : f32_finite b = true -> single (mag32 b).
Proof.
  intros H. exists (f32_m b), (f32_e b). pose proof (f32_m_range b). pose proof (f32_e_range b H). split; [lia|]. split; [lia|apply mag32_me].
Qed.
Lemma single_bits q : single q -> exists z, f32_finite z = true /\ (Qabs q == mag32 z)%Q.
Proof.
  intros (m & e & Hm & He & E).
  assert (A : (Qabs q == inject_Z (Z.abs m) * (2 # 1) ^ e)%Q).
  { rewrite E, Qabs_Qmult. rewrite (Qabs_pos ((2 # 1) ^ e)); [reflexivity|]. apply Qpower_pos_compat || apply Qpower_pos. discriminate. }
  clear E. set (a := Z.abs m) in *. assert (Ha : 0 <= a) by (unfold a; lia). clearbody a. rewrite z24 in Hm.
  destruct (Z.eq_dec a 0) as [->|A0]; [exists 0%N; split; [reflexivity|]; rewrite A; change (inject_Z 0) with 0%Q; rewrite Qmult_0_l; reflexivity|].
  set (l := Z.log2 a).
  assert (Hl : 0 <= l <= 23).
  { split; [apply Z.log2_nonneg|]. assert (l < 24); [|lia]. apply Z.log2_lt_pow2; [lia|]. rewrite z24. lia. }
  pose proof (Z.log2_spec a ltac:(lia)) as [L1 L2]. fold l in L1, L2.
  set (s := Z.min (23 - l) (e + 149)). assert (Hs : 0 <= s <= 23 - l) by (unfold s; lia).
  assert (P : 0 < 2 ^ s) by (apply pow2_pos; lia).
  assert (Q2 : a * 2 ^ s <= 2 ^ 24).
  { apply Z.le_trans with (2 ^ Z.succ l * 2 ^ s); [apply Z.mul_le_mono_nonneg_r; lia|]. rewrite <- Z.pow_add_r by lia. apply Z.pow_le_mono_r; lia. }
  assert (Q1 : 2 ^ 23 <= a * 2 ^ s \/ e - s = -149).
  { destruct (Z_le_gt_dec (23 - l) (e + 149)) as [G|G]; [left|right; unfold s; lia].
    apply Z.le_trans with (2 ^ l * 2 ^ s); [rewrite <- Z.pow_add_r by lia; apply Z.pow_le_mono_r; unfold s; lia|apply Z.mul_le_mono_nonneg_r; lia]. }
  assert (I : (e - s + 149) * 2 ^ 23 + a * 2 ^ s < inf32).
  { unfold inf32. destruct (Z.eq_dec e 104) as [->|]; [destruct (Z.eq_dec s 0) as [S0|]|].
    - rewrite S0. change (2 ^ 0) with 1. rewrite z23. lia.
    - rewrite z23, z24 in *. lia.
    - rewrite z23, z24 in *. lia. }
  destruct (f32_value_mk false (e - s) (a * 2 ^ s) ltac:(unfold s; lia) ltac:(nia) Q1 I) as (B1 & B2 & B3 & B4).
  eexists. split; [exact B2|]. rewrite A. unfold mag32. rewrite Qpower_2. apply frac_eq; [apply pow2max_pos|apply f32_den_pos|].
  set (b := (sign32 false + Z.to_N ((e - s + 149) * 2 ^ 23 + a * 2 ^ s))%N) in *. clearbody b.
  pose proof (pow2max_pos (- (e - s))) as P1. apply (Z.mul_cancel_r _ _ (2 ^ Z.max 0 (- (e - s)))); [lia|].
  replace (f32_num b * 2 ^ Z.max 0 (- e) * 2 ^ Z.max 0 (- (e - s))) with (f32_num b * 2 ^ Z.max 0 (- (e - s)) * 2 ^ Z.max 0 (- e)) by ring. rewrite B4.
  assert (X : 2 ^ Z.max 0 e * 2 ^ Z.max 0 (- (e - s)) = 2 ^ s * 2 ^ Z.max 0 (e - s) * 2 ^ Z.max 0 (- e)).
  { rewrite <- !Z.pow_add_r by lia. f_equal. lia. }
  replace (a * 2 ^ Z.max 0 e * f32_den b * 2 ^ Z.max 0 (- (e - s))) with (a * (2 ^ Z.max 0 e * 2 ^ Z.max 0 (- (e - s))) * f32_den b) by ring. rewrite X. ring.
Qed.

(** Rounding picks a nearest single. *)
Lemma f32_of_rat_neg neg n d : 0 <= n -> 0 < d -> f32_neg (f32_of_rat neg n d) = neg.
Proof.
  intros Hn Hd. destruct (Z.eq_dec n 0) as [->|N0].
  - unfold f32_of_rat. change (0 =? 0) with true. cbv iota. apply f32_neg_mk. rewrite z31. lia.
  - destruct (f32_of_rat_shape neg n d ltac:(lia) Hd) as (e & q & He & Hq & _ & _ & _ & ->). apply f32_neg_mk.
    split; [|eapply Z.le_lt_trans; [apply Z.le_min_r|reflexivity]]. apply Z.min_glb; [rewrite z23; lia|discriminate].
Qed.
Lemma dist32_agree b n d : 0 < d -> (Qabs (mag32 b - (n # Z.to_pos d)) == dist32 b n d # (Z.to_pos (f32_den b) * Z.to_pos d))%Q.
Proof.
  intros Hd. unfold dist32, mag32. unfold Qminus, Qplus, Qopp, Qabs; cbn [Qnum Qden]. rewrite !Z2Pos.id by (assumption || apply f32_den_pos).
  replace (f32_num b * d + - n * f32_den b) with (f32_num b * d - n * f32_den b) by ring. reflexivity.
Qed.
Lemma narrow_nearest neg n d q : 0 <= n -> 0 < d -> f32_finite (f32_of_rat neg n d) = true -> single q ->
  (Qabs (mag32 (f32_of_rat neg n d) - (n # Z.to_pos d)) <= Qabs (Qabs q - (n # Z.to_pos d)))%Q.
Proof.
  intros Hn Hd Hf Hq. destruct (single_bits q Hq) as (z & Hz & ->). rewrite !dist32_agree by assumption.
  unfold Qle; cbn [Qnum Qden]. rewrite !Pos2Z.inj_mul. rewrite !Z2Pos.id by (assumption || apply f32_den_pos). rewrite !Z.mul_assoc. apply Z.mul_le_mono_nonneg_r; [lia|].
  exact (f32_of_rat_nearest neg n d z Hn Hd Hf Hz).
Qed.
(** It is finite below the limit. *)
Lemma narrow_finite neg n d : 0 <= n -> 0 < d -> f32_finite (f32_of_rat neg n d) = (n <? (2 ^ 128 - 2 ^ 103) * d).
Proof.
  intros Hn Hd. destruct (Z.eq_dec n 0) as [->|N0].
  - unfold f32_of_rat. change (0 =? 0) with true. cbv iota. transitivity true; [destruct neg; reflexivity|symmetry; apply Z.ltb_lt]. assert (0 < 2 ^ 128 - 2 ^ 103) by reflexivity. nia.
  - destruct (f32_of_rat_shape neg n d ltac:(lia) Hd) as (e & q & He & Hq & Hnorm & Ee & Hr & ->).
    pose proof (log2_rat_spec n d ltac:(lia) Hd) as [L U]. set (k := log2_rat n d) in *. clearbody k.
    assert (F : f32_finite (sign32 neg + Z.to_N (Z.min ((e + 149) * 2 ^ 23 + q) inf32)) = ((e + 149) * 2 ^ 23 + q <? inf32)).
    { unfold f32_finite, f32_exp. rewrite f32_abs_mk; [|split; [|eapply Z.le_lt_trans; [apply Z.le_min_r|reflexivity]]; apply Z.min_glb; [rewrite z23; lia|discriminate]].
      unfold inf32. rewrite z23 in *. clear - He Hq. rewrite z24 in Hq. lia. }
    rewrite F. clear F.
    assert (PD : forall j, 0 <= j -> 0 < d * 2 ^ j) by (intros j Hj; pose proof (pow2_pos j Hj); clear - Hd H; nia).
    destruct (Z_le_gt_dec k 126) as [K|K].
    + transitivity true; [|symmetry]; apply Z.ltb_lt.
      * unfold inf32. rewrite z23, z24 in *. clear - K Ee Hq. lia.
      * pose proof (shift_lt n d (k + 1) (Z.max 0 (- (k + 1))) ltac:(clear; lia) ltac:(clear; lia)) as S. apply S in U.
        assert (n * 2 ^ Z.max 0 (- (k + 1)) < 2 ^ 127 * d * 2 ^ Z.max 0 (- (k + 1))).
        { eapply Z.lt_le_trans; [exact U|]. replace (2 ^ 127 * d * 2 ^ Z.max 0 (- (k + 1))) with (d * (2 ^ Z.max 0 (- (k + 1)) * 2 ^ 127)) by ring. rewrite <- Z.pow_add_r by (clear; lia).
          apply Z.mul_le_mono_nonneg_l; [lia|]. apply Z.pow_le_mono_r; lia. }
        apply Z.mul_lt_mono_pos_r in H; [|apply pow2max_pos]. eapply Z.lt_le_trans; [exact H|]. apply Z.mul_le_mono_nonneg_r; [lia|]. discriminate.
    + replace (Z.max 0 k) with k in L by lia. replace (Z.max 0 (- k)) with 0 in L by lia. change (2 ^ 0) with 1 in L. rewrite Z.mul_1_r in L.
      destruct (Z.eq_dec k 127) as [->|K2].
      * assert (E4 : e = 104) by (clear - Ee; lia). rewrite E4 in *. clear Ee E4 e. change (Z.max 0 (- 104)) with 0 in Hr. change (Z.max 0 104) with 104 in Hr. change (2 ^ 0) with 1 in Hr. rewrite Z.mul_1_r in Hr.
        destruct Hr as (R1 & R2 & R3). assert (X : (2 ^ 128 - 2 ^ 103) * d * 2 = (2 ^ 25 - 1) * (d * 2 ^ 104)) by (change (2 ^ 128) with (2 ^ 24 * 2 ^ 104); change (2 ^ 104) with (2 ^ 103 * 2); ring).
        pose proof (PD 104 ltac:(lia)) as HD. set (D := d * 2 ^ 104) in *. clearbody D. unfold inf32. change (2 ^ 25) with 33554432 in X. rewrite z23, z24 in *.
        destruct (n <? (2 ^ 128 - 2 ^ 103) * d) eqn:C.
        -- apply Z.ltb_lt. apply Z.ltb_lt in C. set (T := (2 ^ 128 - 2 ^ 103) * d) in *. clearbody T.
           destruct (Z_lt_le_dec q 16777216) as [G|G]; [clear - G; lia|exfalso]. assert (16777216 * D <= q * D) by (apply Z.mul_le_mono_nonneg_r; [clear - HD; lia|exact G]). clear - R1 X C H. lia.
        -- apply Z.ltb_ge. apply Z.ltb_ge in C. set (T := (2 ^ 128 - 2 ^ 103) * d) in *. clearbody T. assert (G : 16777215 <= q) by (clear - R1 X C HD; nia).
           destruct (Z.eq_dec q 16777215) as [Q0|Q0]; [subst q|clear - G Q0; lia]. exfalso. assert (Hd2 : 2 * (n - 16777215 * D) = D) by (clear - R1 X C HD; lia). apply R2 in Hd2. discriminate Hd2.
      * transitivity false; [|symmetry]; apply Z.ltb_ge.
        -- unfold inf32. destruct Hnorm as [Q1|Q1]; [|exfalso; lia]. rewrite z23 in *. lia.
        -- apply Z.le_trans with (d * 2 ^ k); [|exact L]. rewrite Z.mul_comm. apply Z.mul_le_mono_nonneg_l; [lia|]. apply Z.le_trans with (2 ^ 128); [discriminate|]. apply Z.pow_le_mono_r; lia.
Qed.

(** * There and back *)
Lemma sign_cases neg1 neg2 m1 m2 : (0 <= m1)%Q -> (0 <= m2)%Q ->
  (Qabs ((if neg1 : bool then - m1 else m1) - (if neg1 then - m2 else m2)) == Qabs (m1 - m2))%Q /\
  (Qabs (m1 - m2) <= Qabs ((if neg2 : bool then - m1 else m1) - (if neg1 then - m2 else m2)))%Q.
Proof.
  intros H1 H2.
  assert (S : (Qabs (- m1 - - m2) == Qabs (m1 - m2))%Q) by (rewrite <- Qabs_opp; apply Qabs_wd; ring).
  assert (B : (Qabs (m1 - m2) <= m1 + m2)%Q) by (apply Qabs_Qle_condition; split; lra).
  assert (C1 : (Qabs (- m1 - m2) == m1 + m2)%Q) by (rewrite Qabs_neg; [ring|lra]).
  assert (C2 : (Qabs (m1 - - m2) == m1 + m2)%Q) by (rewrite Qabs_pos; [ring|lra]).
  split; destruct neg1; try destruct neg2; try reflexivity; try (rewrite S; apply Qle_refl); try (rewrite C1; exact B); try (rewrite C2; exact B); try apply Qle_refl; exact S.
Qed.
Lemma q_signed q : exists s : bool, (q == if s then - Qabs q else Qabs q)%Q.
Proof.
  destruct (Qlt_le_dec q 0) as [H|H].
  - exists true. rewrite Qabs_neg by (apply Qlt_le_weak; exact H). ring.
  - exists false. rewrite Qabs_pos by exact H. reflexivity.
Qed.
Lemma abs_value b : (b < 2 ^ 64)%N -> (Qabs (double_value b) == magnitude b)%Q.
Proof.
  intros H. pose proof (magnitude_nonneg b H) as M. unfold double_value. destruct (negative b).
  - rewrite Qabs_opp. apply Qabs_pos. exact M.
  - apply Qabs_pos. exact M.
Qed.
Lemma below_limit b : (b < 2 ^ 64)%N -> ((magnitude b < single_limit)%Q <-> f64_num b < (2 ^ 128 - 2 ^ 103) * f64_den b).
Proof.
  intros H. rewrite magnitude_agree by exact H. unfold single_limit, Qlt, inject_Z. cbn [Qnum Qden]. rewrite Z2Pos.id by apply f64_den_pos.
  set (T := 2 ^ 128 - 2 ^ 103). rewrite Z.mul_1_r. reflexivity.
Qed.
Lemma lor_22 f : 0 <= f < 8388608 -> 0 < Z.lor f (2 ^ 22) < 8388608.
Proof.
  intros H. assert (N : 0 <= Z.lor f (2 ^ 22)) by (apply Z.lor_nonneg; split; [lia|discriminate]).
  assert (Z0 : Z.lor f (2 ^ 22) <> 0).
  { intros E. apply Z.lor_eq_0_iff in E as [_ E]. discriminate E. }
  split; [lia|]. change 8388608 with (2 ^ 23). apply Z.log2_lt_pow2; [lia|]. rewrite Z.log2_lor by (lia || discriminate). change (Z.log2 (2 ^ 22)) with 22.
  destruct (Z.eq_dec f 0) as [->|]; [reflexivity|]. assert (Z.log2 f < 23); [|lia]. apply Z.log2_lt_pow2; [lia|]. rewrite z23. lia.
Qed.
Lemma is_f64_of_f32 b : (b < 2 ^ 32)%N -> (f64_of_f32 b < 2 ^ 64)%N.
Proof.
  intros H. apply is_f64_lt. destruct (f32_finite b) eqn:F; [exact (proj1 (widen_finite b F))|]. unfold f64_of_f32. rewrite F.
  destruct (f32_frac b =? 0); apply is_f64_mk; [rewrite z63; unfold inf_bits; rewrite z52; lia|].
  assert (R : 0 <= f32_frac b < 8388608) by (unfold f32_frac; rewrite z23; apply Z.mod_pos_bound; reflexivity). pose proof (lor_22 _ R) as L.
  unfold inf_bits. rewrite z63, z52. change (2 ^ 29) with 536870912. clear - L. lia.
Qed.
Theorem single_there_and_back x : (x < 2 ^ 64)%N -> in_single x (f64_of_f32 (f32_of_f64 x)).
Proof.
  intros Hx. pose proof (proj2 (is_f64_lt x) Hx) as Hb. pose proof (f64_num_nonneg x) as Nn. pose proof (f64_den_pos x) as Dp.
  assert (FF : finite_double x -> f64_finite x = true) by (intros F; apply finite_agree in F; apply F).
  unfold f32_of_f64. split; [|split; [|split]].
  - intros F L. rewrite (FF F). rewrite abs_value in L by exact Hx. apply (below_limit x Hx) in L.
    pose proof (narrow_finite (f64_neg x) (f64_num x) (f64_den x) Nn Dp) as G. rewrite (proj2 (Z.ltb_lt _ _) L) in G.
    pose proof (f32_of_rat_neg (f64_neg x) (f64_num x) (f64_den x) Nn Dp) as S.
    pose proof (fun q => narrow_nearest (f64_neg x) (f64_num x) (f64_den x) q Nn Dp G) as NN.
    set (b := f32_of_rat _ _ _) in *. clearbody b. destruct (widen_finite b G) as (W1 & W2 & W3 & W4). pose proof (widen_magnitude b G) as WM.
    set (y := f64_of_f32 b) in *. clearbody y. pose proof (proj1 (is_f64_lt y) W1) as Hy.
    assert (SG : negative y = negative x) by (rewrite (neg_agree y Hy), (neg_agree x Hx), W3, S; reflexivity).
    split; [apply finite_agree; auto|]. split; [|split; [exact SG|]].
    + unfold double_value. assert (SM : single (magnitude y)).
      { destruct (mag32_single b G) as (m & e & ? & ? & E). exists m, e. rewrite WM. auto. }
      destruct (negative y); [apply single_opp|]; exact SM.
    + intros q Hq. specialize (NN q Hq). rewrite <- (magnitude_agree x Hx) in NN. rewrite <- WM in NN.
      destruct (q_signed q) as [s Eq]. rewrite Eq at 1. unfold double_value. rewrite SG.
      pose proof (magnitude_nonneg x Hx) as Mx. pose proof (magnitude_nonneg y Hy) as My. pose proof (Qabs_nonneg q) as Mq.
      rewrite (proj1 (sign_cases (negative x) true (magnitude y) (magnitude x) My Mx)). eapply Qle_trans; [exact NN|].
      exact (proj2 (sign_cases (negative x) s (Qabs q) (magnitude x) Mq Mx)).
  - intros F L. rewrite (FF F). rewrite abs_value in L by exact Hx.
    assert (L' : (2 ^ 128 - 2 ^ 103) * f64_den x <= f64_num x).
    { destruct (Z_lt_le_dec (f64_num x) ((2 ^ 128 - 2 ^ 103) * f64_den x)) as [C|C]; [|exact C]. apply (below_limit x Hx) in C. exfalso. apply (Qle_not_lt _ _ L C). }
    pose proof (narrow_finite (f64_neg x) (f64_num x) (f64_den x) Nn Dp) as G. rewrite (proj2 (Z.ltb_ge _ _) L') in G.
    assert (N0 : 0 < f64_num x). { eapply Z.lt_le_trans; [|exact L']. apply Z.mul_pos_pos; [reflexivity|exact Dp]. }
    destruct (f32_of_rat_shape (f64_neg x) (f64_num x) (f64_den x) N0 Dp) as (e & q & He & Hq & _ & _ & _ & E). rewrite E in *. clear E.
    assert (I : inf32 <= (e + 149) * 2 ^ 23 + q).
    { destruct (Z_lt_le_dec ((e + 149) * 2 ^ 23 + q) inf32) as [C|C]; [|exact C]. exfalso. rewrite Z.min_l in G by (clear - C; lia). unfold f32_finite, f32_exp in G.
      rewrite f32_abs_mk in G; [unfold inf32 in C; rewrite z23 in *; clear - G C He; lia|]. split; [rewrite z23; clear - He Hq; lia|eapply Z.lt_trans; [exact C|reflexivity]]. }
    rewrite Z.min_r by exact I. rewrite (neg_agree x Hx). destruct (f64_neg x); vm_compute; reflexivity.
  - intros E. assert (C : x = infinity true \/ x = infinity false) by (destruct (negative x); auto). destruct C as [-> | ->]; vm_compute; reflexivity.
  - intros (_ & NE & NF). rewrite exp_agree in NE by exact Hx. rewrite frac_agree in NF by exact Hx.
    unfold f64_finite. rewrite NE. change (2047 <? 2047) with false. cbv iota. replace (f64_frac x =? 0) with false by (clear - NF; lia).
    pose proof (f64_frac_range x) as R. rewrite z52 in R.
    assert (R2 : 0 <= f64_frac x / 2 ^ 29 < 8388608) by (change (2 ^ 29) with 536870912; clear - R; lia). pose proof (lor_22 _ R2) as R3. set (p := Z.lor (f64_frac x / 2 ^ 29) (2 ^ 22)) in *.
    clearbody p. clear R2 NE NF R. set (s := f64_neg x). clearbody s. clear -R3.
    assert (A : f32_abs_bits (sign32 s + Z.to_N (inf32 + p)) = inf32 + p) by (apply f32_abs_mk; unfold inf32; rewrite z31, z23; lia).
    assert (S : f32_neg (sign32 s + Z.to_N (inf32 + p)) = s) by (apply f32_neg_mk; unfold inf32; rewrite z31, z23; lia).
    unfold f64_of_f32, f32_finite, f32_exp, f32_frac. rewrite A, S. unfold inf32. rewrite z23.
    replace ((255 * 8388608 + p) / 8388608) with 255 by lia. replace ((255 * 8388608 + p) mod 8388608) with p by lia. change (255 <? 255) with false. cbv iota.
    replace (p =? 0) with false by lia. pose proof (lor_22 p ltac:(lia)) as R4. set (t := Z.lor p (2 ^ 22)) in *. clearbody t.
    change (2 ^ 29) with 536870912. assert (M : 0 <= inf_bits + t * 536870912 < 2 ^ 63) by (unfold inf_bits; rewrite z63, z52; lia).
    pose proof (f64_abs_mk s _ M) as A2. pose proof (proj1 (is_f64_lt _) (is_f64_mk s _ M)) as B2. set (z := (sign_bit s + Z.to_N (inf_bits + t * 536870912))%N) in *. clearbody z.
    split; [exact B2|]. rewrite exp_agree, frac_agree by exact B2. unfold f64_exp, f64_frac. rewrite A2. unfold inf_bits. rewrite z52. clear - R4. split; lia.
Qed.
(** A single comes back as it is. *)
Lemma single_exact x y : nearest_single x y -> finite_double x -> single (double_value x) -> y = x.
Proof.
  intros (Fy & _ & S & N) Fx Sx. specialize (N _ Sx). assert (E : (Qabs (double_value y - double_value x) == 0)%Q).
  { apply Qle_antisym; [|apply Qabs_nonneg]. eapply Qle_trans; [exact N|]. assert (X : (double_value x - double_value x == 0)%Q) by ring. rewrite X. discriminate. }
  apply finite_agree in Fy as [By Fy]. apply finite_agree in Fx as [Bx Fx]. pose proof (proj1 (is_f64_lt y) By) as Hy. pose proof (proj1 (is_f64_lt x) Bx) as Hx.
  unfold double_value in E. rewrite S in E. rewrite (proj1 (sign_cases (negative x) true _ _ (magnitude_nonneg y Hy) (magnitude_nonneg x Hx))) in E.
  assert (M : (magnitude y == magnitude x)%Q).
  { apply Qle_antisym; pose proof (Qle_Qabs (magnitude y - magnitude x)) as A1; pose proof (Qle_Qabs (- (magnitude y - magnitude x))) as A2; rewrite Qabs_opp in A2; lra. }
  rewrite !magnitude_agree in M by assumption. unfold Qeq in M. cbn [Qnum Qden] in M. rewrite !Z2Pos.id in M by apply f64_den_pos.
  rewrite (neg_agree y Hy), (neg_agree x Hx) in S.
  rewrite <- (f64_of_rat_exact y (f64_num y) (f64_den y) By Fy (f64_num_nonneg y) (f64_den_pos y) eq_refl).
  rewrite <- (f64_of_rat_exact x (f64_num x) (f64_den x) Bx Fx (f64_num_nonneg x) (f64_den_pos x) eq_refl).
  rewrite S. apply f64_of_rat_ratio; try apply f64_num_nonneg; try apply f64_den_pos. exact M.
Qed.

Lemma single_below q : single q -> (Qabs q < single_limit)%Q.
Proof.
  intros (m & e & Hm & He & E). rewrite E, Qabs_Qmult. assert (P : (0 <= (2 # 1) ^ e)%Q) by (apply Qpower_0_le; discriminate). rewrite (Qabs_pos ((2 # 1) ^ e)) by exact P.
  assert (L : ((2 # 1) ^ e <= (2 # 1) ^ 104)%Q) by (apply Qpower_le_compat_l; [lia|discriminate]).
  assert (M : (Qabs (inject_Z m) <= inject_Z (2 ^ 24 - 1))%Q) by (unfold Qabs, inject_Z, Qle; cbn [Qnum Qden]; lia).
  apply (Qle_lt_trans _ (inject_Z (2 ^ 24 - 1) * (2 # 1) ^ 104)); [|vm_compute; reflexivity].
  apply Qmult_le_compat_nonneg; [split; [apply Qabs_nonneg|exact M]|split; [exact P|exact L]].
Qed.
Lemma single_stays x y : in_single x y -> finite_double x -> single (double_value x) -> y = x.
Proof. intros (A & _) F S. exact (single_exact x y (A F (single_below _ S)) F S). Qed.

(** The model of doubles against the rational semantics of F64Spec. *)
From Coq Require Import QArith Qabs Qpower Lqa.
From Verif Require Import Base TextModel F64Model F64Spec F64Proofs.
Ltac Zify.zify_post_hook ::= Z.div_mod_to_equations.
Open Scope Z_scope.

Lemma neg_agree : forall b, (b < 2 ^ 64)%N -> negative b = f64_neg b.
Proof.
  intros b H. unfold negative, f64_neg. rewrite N.testbit_eqb. rewrite n64 in H. rewrite n63.
  destruct (9223372036854775808 <=? b)%N eqn:E; [rewrite N.eqb_eq|rewrite N.eqb_neq]; lia.
Qed.

Lemma exp_agree : forall b, (b < 2 ^ 64)%N -> biased_exponent b = f64_exp b.
Proof.
  intros b H. unfold biased_exponent, f64_exp, f64_abs_bits. rewrite n64 in H. rewrite z63, z52. lia.
Qed.

Lemma frac_agree : forall b, (b < 2 ^ 64)%N -> fraction_field b = f64_frac b.
Proof.
  intros b H. unfold fraction_field, f64_frac, f64_abs_bits. rewrite n64 in H. rewrite z63, z52. lia.
Qed.

Lemma is_f64_lt : forall b, is_f64 b = true <-> (b < 2 ^ 64)%N.
Proof. intros b. unfold is_f64. apply N.ltb_lt. Qed.

Lemma finite_agree : forall b, finite_double b <-> is_f64 b = true /\ f64_finite b = true.
Proof.
  intros b. unfold finite_double, f64_finite. rewrite is_f64_lt. split; intros [H1 H2]; (split; [assumption|]).
  - rewrite exp_agree in H2 by assumption. pose proof (f64_exp_range b). lia.
  - rewrite exp_agree by assumption. lia.
Qed.

Lemma Qpower_2 : forall m e, (inject_Z m * (2 # 1) ^ e == (m * 2 ^ Z.max 0 e) # Z.to_pos (2 ^ Z.max 0 (- e)))%Q.
Proof.
  intros m e. destruct (Z_lt_le_dec e 0) as [H|H].
  - replace (Z.max 0 e) with 0 by lia. replace (Z.max 0 (- e)) with (- e) by lia.
    change (2 ^ 0) with 1. rewrite Z.mul_1_r.
    replace e with (- (- e)) at 1 by lia. rewrite Qpower_opp.
    assert (E : ((2 # 1) ^ (- e) == inject_Z (2 ^ (- e)))%Q).
    { change (2 # 1)%Q with (inject_Z 2). symmetry. apply Zpower_Qpower. lia. }
    rewrite E. pose proof (pow2_pos (- e) ltac:(lia)) as P.
    destruct (2 ^ (- e)) as [|p|p]; try (exfalso; clear - P; lia).
    unfold Qeq, Qinv, Qmult, inject_Z; cbn [Qnum Qden Z.to_pos]. lia.
  - replace (Z.max 0 e) with e by lia. replace (Z.max 0 (- e)) with 0 by lia.
    change (Z.to_pos (2 ^ 0)) with 1%positive.
    change (2 # 1)%Q with (inject_Z 2). rewrite <- Zpower_Qpower by assumption. rewrite <- inject_Z_mult. reflexivity.
Qed.

Lemma magnitude_agree : forall b, (b < 2 ^ 64)%N -> (magnitude b == f64_num b # Z.to_pos (f64_den b))%Q.
Proof.
  intros b H. unfold magnitude. rewrite exp_agree, frac_agree by assumption.
  unfold f64_num, f64_den. rewrite <- Qpower_2. unfold f64_m, f64_e.
  destruct (f64_exp b =? 0); [reflexivity|]. rewrite (Z.add_comm (2 ^ 52)). reflexivity.
Qed.

Lemma dist_agree : forall b n d, (b < 2 ^ 64)%N -> 0 < d ->
  (Qabs (magnitude b - (n # Z.to_pos d)) == dist b n d # (Z.to_pos (f64_den b) * Z.to_pos d))%Q.
Proof.
  intros b n d H Hd. rewrite magnitude_agree by assumption. unfold dist.
  unfold Qminus, Qplus, Qopp, Qabs; cbn [Qnum Qden].
  rewrite !Z2Pos.id by (assumption || apply f64_den_pos).
  replace (f64_num b * d + - n * f64_den b) with (f64_num b * d - n * f64_den b) by ring. reflexivity.
Qed.

Lemma magnitude_nonneg : forall b, (b < 2 ^ 64)%N -> (0 <= magnitude b)%Q.
Proof.
  intros b H. rewrite magnitude_agree by assumption. unfold Qle; cbn [Qnum Qden]. pose proof (f64_num_nonneg b). lia.
Qed.

Lemma f64_of_rat_neg : forall neg n d, 0 <= n -> 0 < d -> f64_neg (f64_of_rat neg n d) = neg /\ is_f64 (f64_of_rat neg n d) = true.
Proof.
  intros neg n d Hn Hd. destruct (Z.eq_dec n 0) as [->|N0].
  - unfold f64_of_rat. change (0 =? 0) with true. cbn iota. split; [apply f64_neg_mk|apply is_f64_mk]; rewrite z63; lia.
  - destruct (f64_of_rat_shape neg n d ltac:(lia) Hd) as (e & q & He & Hq & _ & _ & _ & ->).
    assert (0 <= Z.min ((e + 1074) * 2 ^ 52 + q) inf_bits < 2 ^ 63).
    { split; [|eapply Z.le_lt_trans; [apply Z.le_min_r|reflexivity]].
      apply Z.min_glb; [rewrite z52; lia|discriminate]. }
    split; [apply f64_neg_mk|apply is_f64_mk]; assumption.
Qed.

(** The double chosen for a rational is a nearest one. *)
Lemma f64_of_rat_is_nearest : forall neg n d, 0 <= n -> 0 < d -> f64_finite (f64_of_rat neg n d) = true ->
  nearest_double (if neg then - (n # Z.to_pos d) else n # Z.to_pos d) (f64_of_rat neg n d).
Proof.
  intros neg n d Hn Hd Hf. destruct (f64_of_rat_neg neg n d Hn Hd) as [Hs Hb].
  pose proof (proj1 (is_f64_lt _) Hb) as Hlt.
  split; [apply finite_agree; auto|]. intros z Fz. apply finite_agree in Fz as [Zb Zf]. apply is_f64_lt in Zb.
  pose proof (f64_of_rat_nearest neg n d z Hn Hd Hf Zf) as NR. set (b := f64_of_rat neg n d) in *. clearbody b.
  assert (A : (Qabs (magnitude b - (n # Z.to_pos d)) <= Qabs (magnitude z - (n # Z.to_pos d)))%Q).
  { rewrite !dist_agree by assumption. unfold Qle; cbn [Qnum Qden]. rewrite !Pos2Z.inj_mul.
    rewrite !Z2Pos.id by (assumption || apply f64_den_pos). rewrite !Z.mul_assoc. apply Z.mul_le_mono_nonneg_r; [lia|].
    exact NR. }
  pose proof (magnitude_nonneg z Zb) as Mz.
  assert (P : (0 <= n # Z.to_pos d)%Q) by (unfold Qle; cbn [Qnum Qden]; lia).
  set (t := n # Z.to_pos d) in *. clearbody t.
  unfold double_value. rewrite (neg_agree b Hlt), Hs.
  assert (B : (Qabs (magnitude z - t) <= Qabs (- magnitude z - t))%Q).
  { set (m := magnitude z) in *. clearbody m. clear - Mz P.
    rewrite (Qabs_neg (- m - t)) by lra. apply Qabs_Qle_condition. split; lra. }
  assert (S : forall x y, (Qabs (- x - - y) == Qabs (x - y))%Q).
  { intros x y. rewrite <- Qabs_opp. apply Qabs_wd. ring. }
  assert (S2 : forall x y, (Qabs (x - - y) == Qabs (- x - y))%Q).
  { intros x y. rewrite <- Qabs_opp. apply Qabs_wd. ring. }
  destruct neg; destruct (negative z).
  - rewrite !S. exact A.
  - rewrite S, S2. eapply Qle_trans; [exact A|exact B].
  - eapply Qle_trans; [exact A|exact B].
  - exact A.
Qed.

Lemma small_finite : forall neg s, 0 <= s <= 8192 * 10 ^ 12 -> f64_finite (f64_of_rat neg s (10 ^ 12)) = true.
Proof.
  intros neg s H. rewrite z1012 in *. destruct (Z.eq_dec s 0) as [->|N0]; [destruct neg; reflexivity|].
  destruct (f64_of_rat_shape neg s 1000000000000 ltac:(lia) ltac:(lia)) as (e & q & He & Hq & _ & Ee & _ & E).
  pose proof (log2_rat_spec s 1000000000000 ltac:(lia) ltac:(lia)) as [L _]. set (k := log2_rat s 1000000000000) in *. clearbody k.
  assert (K : k <= 13).
  { destruct (Z_le_gt_dec k 13) as [|G]; [assumption|]. exfalso. replace (Z.max 0 k) with k in L by lia. replace (Z.max 0 (- k)) with 0 in L by lia.
    change (2 ^ 0) with 1 in L. assert (2 ^ 14 <= 2 ^ k) by (apply Z.pow_le_mono_r; lia). change (2 ^ 14) with 16384 in H0. lia. }
  rewrite E. assert (M : (e + 1074) * 2 ^ 52 + q < inf_bits). { unfold inf_bits. rewrite z52, z53 in *. lia. }
  rewrite Z.min_l by lia. unfold f64_finite, f64_exp. rewrite f64_abs_mk.
  - unfold inf_bits in M. rewrite z52, z53 in *. lia.
  - split; [rewrite z52; lia|]. eapply Z.lt_trans; [exact M|]. reflexivity.
Qed.

(** Reading the text of a double gives the double nearest to its value rounded to twelve decimals. *)
Lemma text_nearest : forall b o, finite_double b ->
  exists s r, rounded_to_12 (double_value b) s /\
    parse_f64 (format_f64 b) o = Ok r /\ negative r = negative b /\
    nearest_double (inject_Z s / inject_Z (10 ^ 12)) r.
Proof.
  intros b o F. pose proof F as F'. apply finite_agree in F' as [Hb Hf]. pose proof (proj1 (is_f64_lt b) Hb) as Hlt.
  exists (if f64_neg b then - f64_scaled b else f64_scaled b), (f64_of_rat (f64_neg b) (f64_scaled b) (10 ^ 12)).
  pose proof (f64_scaled_nonneg b) as SN. pose proof (f64_den_pos b) as DP.
  assert (R : rounds_to (f64_num b * 10 ^ 12) (f64_den b) (f64_scaled b)) by (apply round_half_even_spec; assumption).
  assert (FIN : f64_finite (f64_of_rat (f64_neg b) (f64_scaled b) (10 ^ 12)) = true).
  { destruct (Z_le_gt_dec (-39) (f64_e b)) as [He|He].
    - pose proof (exact_large b 0%N Hb Hf He) as X. rewrite parse_format_f64 in X by assumption. injection X as X. rewrite X. exact Hf.
    - apply small_finite. split; [assumption|].
      eapply round_upper; [exact DP|exact R|]. pose proof (f64_m_range b) as Rm.
      assert (f64_num b < 8192 * f64_den b); [|rewrite z1012; clear - H; lia].
      unfold f64_num, f64_den. replace (Z.max 0 (f64_e b)) with 0 by (clear - He; lia).
      replace (Z.max 0 (- f64_e b)) with (- f64_e b) by (clear - He; lia). change (2 ^ 0) with 1.
      change 8192 with (2 ^ 13). rewrite <- Z.pow_add_r by (clear - He; lia).
      rewrite Z.mul_1_r. eapply Z.lt_le_trans; [apply Rm|]. apply Z.pow_le_mono_r; clear - He; lia. }
  destruct (f64_of_rat_neg (f64_neg b) (f64_scaled b) (10 ^ 12) SN ltac:(reflexivity)) as [Hs Hb'].
  split; [|split; [apply parse_format_f64; assumption|split]].
  - unfold rounded_to_12, double_value. rewrite (neg_agree b Hlt).
    assert (A : (Qabs (magnitude b * inject_Z (10 ^ 12) - inject_Z (f64_scaled b)) <= 1 # 2)%Q).
    { rewrite magnitude_agree by assumption. destruct R as (R1 & _ & _).
      unfold Qle, Qabs, Qminus, Qplus, Qopp, Qmult, inject_Z; cbn [Qnum Qden].
      rewrite !Pos.mul_1_r, !Z.mul_1_r. rewrite !Z2Pos.id by assumption.
      replace (f64_num b * 10 ^ 12 + - f64_scaled b * f64_den b) with (f64_num b * 10 ^ 12 - f64_scaled b * f64_den b) by ring.
      rewrite Z.mul_1_l. clear - R1. lia. }
    destruct (f64_neg b); [|exact A]. rewrite inject_Z_opp.
    setoid_replace (- magnitude b * inject_Z (10 ^ 12) - - inject_Z (f64_scaled b))%Q
      with (- (magnitude b * inject_Z (10 ^ 12) - inject_Z (f64_scaled b)))%Q by ring.
    rewrite Qabs_opp. exact A.
  - rewrite (neg_agree b Hlt), neg_agree by (apply is_f64_lt; assumption). exact Hs.
  - pose proof (f64_of_rat_is_nearest (f64_neg b) (f64_scaled b) (10 ^ 12) SN ltac:(reflexivity) FIN) as [N1 N2].
    assert (E : ((if f64_neg b then - (f64_scaled b # Z.to_pos (10 ^ 12)) else f64_scaled b # Z.to_pos (10 ^ 12))
                 == inject_Z (if f64_neg b then - f64_scaled b else f64_scaled b) / inject_Z (10 ^ 12))%Q).
    { change (Z.to_pos (10 ^ 12)) with 1000000000000%positive. change (10 ^ 12) with 1000000000000.
      destruct (f64_neg b); unfold Qeq, Qdiv, Qmult, Qinv, Qopp, inject_Z; cbn [Qnum Qden]; lia. }
    split; [exact N1|]. intros z Fz. rewrite <- E. apply N2. exact Fz.
Qed.

(** Multiples of 2^-12 are read back exactly. *)
Lemma text_exact_4096 : forall b o k, finite_double b -> (double_value b * inject_Z 4096 == inject_Z k)%Q ->
  parse_f64 (format_f64 b) o = Ok b.
Proof.
  intros b o k F H. apply finite_agree in F as [Hb Hf]. apply exact_4096; [assumption|assumption|].
  pose proof (proj1 (is_f64_lt b) Hb) as Hlt. pose proof (f64_den_pos b) as DP.
  exists (Z.abs k).
  assert (A : (magnitude b * inject_Z 4096 == inject_Z (Z.abs k))%Q).
  { pose proof (magnitude_nonneg b Hlt) as M. unfold double_value in H. destruct (negative b).
    - assert (E : (magnitude b * inject_Z 4096 == inject_Z (- k))%Q) by (rewrite inject_Z_opp, <- H; ring).
      rewrite E. assert (0 <= inject_Z (- k))%Q. { rewrite <- E. change (inject_Z 4096) with (4096 # 1). lra. }
      unfold Qle in H0; cbn [inject_Z Qnum Qden] in H0. replace (Z.abs k) with (- k) by lia. reflexivity.
    - rewrite H. assert (0 <= inject_Z k)%Q. { rewrite <- H. change (inject_Z 4096) with (4096 # 1). lra. }
      unfold Qle in H0; cbn [inject_Z Qnum Qden] in H0. replace (Z.abs k) with k by lia. reflexivity. }
  rewrite magnitude_agree in A by assumption. unfold Qeq, Qmult, inject_Z in A; cbn [Qnum Qden] in A.
  rewrite Pos.mul_1_r, Z2Pos.id in A by assumption. lia.
Qed.

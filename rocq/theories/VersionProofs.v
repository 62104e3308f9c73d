From Verif Require Import Base VersionModel StreamSpec.

Lemma version_roundtrip v : v <> R11 -> version_from (version_text v) = Ok v.
Proof. destruct v; try reflexivity. intros H. contradiction H. reflexivity. Qed.
Lemma r11_is_r12 : version_from (version_text R11) = Ok R12.
Proof. reflexivity. Qed.
Lemma version_text_inj a b : version_text a = version_text b -> a = b \/ (a = R11 /\ b = R12) \/ (a = R12 /\ b = R11).
Proof. destruct a, b; auto; intros H; discriminate H. Qed.
Lemma position_index v : N.of_nat (position v) = version_index v.
Proof. destruct v; reflexivity. Qed.
Lemma position_nth v : nth (position v) chronological R12 = v.
Proof. destruct v; reflexivity. Qed.
Lemma version_order a b :
  (version_leb a b = true <-> (position a <= position b)%nat) /\ (version_leb a b = true \/ version_leb b a = true) /\
  (version_leb a b = true -> version_leb b a = true -> a = b).
Proof.
  unfold version_leb. rewrite <- !position_index. split; [|split].
  - split; intros H; lia.
  - lia.
  - intros H1 H2. assert (E : position a = position b) by lia. clear H1 H2.
    rewrite <- (position_nth a), <- (position_nth b), E. reflexivity.
Qed.

(** Lemmas about the text-level functions. *)
From Coq Require Import Ascii String NArith ZArith Bool Lia List.
From Coq Require Import ZifyBool ZifyNat ZifyN.
From Verif Require Import Base TextModel TextSpec.
Import ListNotations.
Open Scope N_scope.
Ltac Zify.zify_post_hook ::= Z.div_mod_to_equations.

(** * Control escapes *)

Lemma un_escape_escape_loop : forall s t,
  un_escape_loop false (escape_control_characters s ++ t) = s ++ un_escape_loop false t.
Proof.
  induction s as [|c s IH]; intros t; [reflexivity|].
  cbn [escape_control_characters flat_map app]. rewrite <- app_assoc.
  unfold escape_control_char at 1. unfold needs_escaping.
  destruct (c <=? 0x1F) eqn:E1; [|destruct (c =? 0x5E) eqn:E2]; cbn [orb app].
  - cbn [un_escape_loop]. change (caret =? caret) with true. cbn [andb negb].
    assert (E2 : (c =? 0x5E) = false) by lia. rewrite E2. rewrite andb_false_r.
    f_equal; [|apply IH].
    unfold un_escape_char.
    destruct ((0x40 <=? c + 0x40) && (c + 0x40 <=? 0x5F)) eqn:E3; lia.
  - cbn [un_escape_loop]. change (caret =? caret) with true. cbn [andb negb].
    rewrite andb_false_r. change (un_escape_char 32) with caret.
    f_equal; [unfold caret; lia|apply IH].
  - cbn [un_escape_loop]. replace (c =? caret) with false by (unfold caret; lia).
    cbn [andb]. f_equal. apply IH.
Qed.

Lemma un_escape_escape : forall s, un_escape_string (escape_control_characters s) = s.
Proof.
  intros s. unfold un_escape_string.
  rewrite <- (app_nil_r (escape_control_characters s)), un_escape_escape_loop.
  apply app_nil_r.
Qed.

Lemma escape_caret_form : forall s, escape_control_characters s = caret_form s.
Proof.
  intros s. unfold escape_control_characters, caret_form. apply flat_map_ext. intros c.
  unfold escape_control_char, needs_escaping, caret.
  destruct (c <? 32) eqn:A, (c =? 94) eqn:B, (c <=? 31) eqn:C; try reflexivity; lia.
Qed.

Lemma escape_control_no_control : forall s,
  Forall (fun c => 0x20 <= c) (escape_control_characters s).
Proof.
  induction s as [|c s IH]; [constructor|].
  unfold escape_control_characters in *. cbn [flat_map]. apply Forall_app. split; [|exact IH].
  unfold escape_control_char, needs_escaping.
  destruct ((c <=? 0x1F) || (c =? 0x5E)) eqn:E.
  - repeat constructor; [unfold caret; lia|]. destruct (c =? 0x5E) eqn:E2; lia.
  - repeat constructor. lia.
Qed.

Lemma escape_control_scalar : forall s,
  Forall (fun c => is_scalar c = true) s ->
  Forall (fun c => is_scalar c = true) (escape_control_characters s).
Proof.
  induction 1 as [|c s Hc _ IH]; [constructor|].
  unfold escape_control_characters in *. cbn [flat_map]. apply Forall_app. split; [|exact IH].
  unfold escape_control_char, needs_escaping.
  destruct ((c <=? 0x1F) || (c =? 0x5E)) eqn:E.
  - repeat constructor. destruct (c =? 0x5E) eqn:E2; unfold is_scalar; lia.
  - repeat constructor. assumption.
Qed.

(** * Digits *)

Lemma size_nat_bound : forall n, n < 2 ^ N.of_nat (N.size_nat n).
Proof.
  intros n. destruct n as [|p]; [cbn; lia|].
  replace (N.of_nat (N.size_nat (N.pos p))) with (N.size (N.pos p)).
  - apply N.size_gt.
  - cbn. clear. induction p; cbn; lia.
Qed.

Definition undigits (b : N) (acc : N) (l : list N) : N := fold_left (fun a d => a * b + d) l acc.

Lemma undigits_app : forall b l1 l2 acc,
  undigits b acc (l1 ++ l2) = undigits b (undigits b acc l1) l2.
Proof. intros. unfold undigits. apply fold_left_app. Qed.

Lemma digits_fuel_undigits : forall b fuel n,
  2 <= b -> n < 2 ^ N.of_nat fuel -> (0 < fuel)%nat ->
  undigits b 0 (digits_fuel b fuel n) = n.
Proof.
  intros b fuel. induction fuel as [|f IH]; intros n Hb Hn Hf; [lia|].
  cbn [digits_fuel]. destruct (n <? b) eqn:E; [unfold undigits; cbn; lia|].
  destruct f as [|f'].
  { exfalso. assert (2 ^ N.of_nat 1 = 2) by reflexivity. lia. }
  rewrite undigits_app, IH; [|assumption| |lia].
  - unfold undigits; cbn. rewrite N.mul_comm. symmetry. apply N.div_mod. lia.
  - replace (N.of_nat (S (S f'))) with (N.succ (N.of_nat (S f'))) in Hn by lia.
    rewrite N.pow_succ_r' in Hn.
    apply N.div_lt_upper_bound; [lia|].
    eapply N.lt_le_trans; [exact Hn|]. apply N.mul_le_mono_r. assumption.
Qed.

Lemma digits_undigits : forall b n, 2 <= b -> undigits b 0 (digits b n) = n.
Proof.
  intros b n Hb. unfold digits. apply digits_fuel_undigits; [assumption| |lia].
  eapply N.lt_le_trans; [apply size_nat_bound|]. apply N.pow_le_mono_r; lia.
Qed.

Lemma digits_fuel_range : forall b fuel n, 0 < b -> Forall (fun d => d < b) (digits_fuel b fuel n).
Proof.
  intros b fuel. induction fuel as [|f IH]; intros n Hb; cbn [digits_fuel]; [constructor|].
  destruct (n <? b) eqn:E.
  - repeat constructor. lia.
  - apply Forall_app. split; [apply IH; assumption|]. repeat constructor. apply N.mod_lt. lia.
Qed.

Lemma digits_range : forall b n, 0 < b -> Forall (fun d => d < b) (digits b n).
Proof. intros. apply digits_fuel_range. assumption. Qed.

Lemma digits_fuel_length : forall b fuel n k,
  2 <= b -> (0 < k)%nat -> n < b ^ N.of_nat k -> (length (digits_fuel b fuel n) <= k)%nat.
Proof.
  intros b fuel. induction fuel as [|f IH]; intros n k Hb Hk Hn; cbn [digits_fuel]; [cbn; lia|].
  destruct (n <? b) eqn:E; [cbn; lia|].
  rewrite app_length. cbn [length].
  destruct k as [|[|k]]; [lia| |].
  - exfalso. change (N.of_nat 1) with 1 in Hn. rewrite N.pow_1_r in Hn. lia.
  - assert (length (digits_fuel b f (n / b)) <= S k)%nat; [|lia].
    apply IH; [assumption|lia|].
    replace (N.of_nat (S (S k))) with (N.succ (N.of_nat (S k))) in Hn by lia.
    rewrite N.pow_succ_r' in Hn. apply N.div_lt_upper_bound; lia.
Qed.

Lemma digits_fuel_ne : forall b fuel n, digits_fuel b (S fuel) n <> [].
Proof.
  intros b fuel n. cbn [digits_fuel]. destruct (n <? b); [congruence|].
  intros H. apply app_eq_nil in H as [_ H]. congruence.
Qed.

Lemma digits_ne : forall b n, digits b n <> [].
Proof. intros. apply digits_fuel_ne. Qed.

(** No leading zero: the first digit is zero only for the number zero. *)
Lemma digits_fuel_head : forall b fuel n,
  2 <= b -> n < 2 ^ N.of_nat fuel -> (0 < fuel)%nat -> n <> 0 ->
  hd 0 (digits_fuel b fuel n) <> 0.
Proof.
  intros b fuel. induction fuel as [|f IH]; intros n Hb Hn Hf Hz; [lia|].
  cbn [digits_fuel]. destruct (n <? b) eqn:E; [cbn; assumption|].
  destruct f as [|f'].
  { exfalso. assert (2 ^ N.of_nat 1 = 2) by reflexivity. lia. }
  assert (H : n / b < 2 ^ N.of_nat (S f')).
  { replace (N.of_nat (S (S f'))) with (N.succ (N.of_nat (S f'))) in Hn by lia.
    rewrite N.pow_succ_r' in Hn.
    apply N.div_lt_upper_bound; [lia|].
    eapply N.lt_le_trans; [exact Hn|]. apply N.mul_le_mono_r. assumption. }
  assert (H2 : n / b <> 0).
  { intros C. apply N.div_small_iff in C; lia. }
  specialize (IH (n / b) Hb H ltac:(lia) H2).
  destruct (digits_fuel b (S f') (n / b)) eqn:D; [exfalso; apply IH; reflexivity|exact IH].
Qed.

Lemma digits_head : forall b n, 2 <= b -> n <> 0 -> hd 0 (digits b n) <> 0.
Proof.
  intros. unfold digits. apply digits_fuel_head; try assumption; [|lia].
  eapply N.lt_le_trans; [apply size_nat_bound|]. apply N.pow_le_mono_r; lia.
Qed.

Lemma parse_radix_map : forall val b f l acc,
  Forall (fun d => val (f d) = Some d) l ->
  parse_radix_loop val b acc (map f l) = Some (undigits b acc l).
Proof.
  intros val b f l. induction l as [|d l IH]; intros acc H; [reflexivity|].
  inversion H as [|? ? Hd Hl]; subst. cbn [map parse_radix_loop]. rewrite Hd.
  rewrite IH by assumption. reflexivity.
Qed.

Lemma hex_value_digit : forall d, d < 16 -> hex_value (hex_digit d) = Some d.
Proof.
  intros d H. unfold hex_value, hex_digit. destruct (d <? 10) eqn:E.
  - replace ((48 <=? d + 48) && (d + 48 <=? 57)) with true by lia. f_equal. lia.
  - replace ((48 <=? d + 55) && (d + 55 <=? 57)) with false by lia.
    replace ((65 <=? d + 55) && (d + 55 <=? 70)) with true by lia. f_equal. lia.
Qed.

Lemma dec_value_digit : forall d, d < 10 -> dec_value (d + 0x30) = Some d.
Proof.
  intros d H. unfold dec_value.
  replace ((48 <=? d + 48) && (d + 48 <=? 57)) with true by lia. f_equal. lia.
Qed.

Lemma parse_show_hex : forall n acc,
  parse_radix_loop hex_value 16 acc (show_hex n) = Some (undigits 16 acc (digits 16 n)).
Proof.
  intros. unfold show_hex. apply parse_radix_map.
  eapply Forall_impl; [|apply digits_range; lia]. intros d Hd. apply hex_value_digit. exact Hd.
Qed.

Lemma parse_show_dec : forall n acc,
  parse_radix_loop dec_value 10 acc (show_dec n) = Some (undigits 10 acc (digits 10 n)).
Proof.
  intros. unfold show_dec. apply parse_radix_map.
  eapply Forall_impl; [|apply digits_range; lia]. intros d Hd. apply dec_value_digit. exact Hd.
Qed.

Lemma show_dec_ne : forall n, show_dec n <> [].
Proof.
  intros n H. unfold show_dec in H. apply map_eq_nil in H. apply (digits_ne 10 n H).
Qed.
Lemma show_hex_ne : forall n, show_hex n <> [].
Proof.
  intros n H. unfold show_hex in H. apply map_eq_nil in H. apply (digits_ne 16 n H).
Qed.

Lemma show_dec_chars : forall n, Forall (fun c => 0x30 <= c <= 0x39) (show_dec n).
Proof.
  intros n. unfold show_dec. apply Forall_map.
  eapply Forall_impl; [|apply (digits_range 10); lia]. cbn. intros d Hd. lia.
Qed.

Lemma show_hex_chars : forall n,
  Forall (fun c => 0x30 <= c <= 0x39 \/ 0x41 <= c <= 0x46) (show_hex n).
Proof.
  intros n. unfold show_hex. apply Forall_map.
  eapply Forall_impl; [|apply (digits_range 16); lia]. cbn. intros d Hd.
  unfold hex_digit. destruct (d <? 10) eqn:E; lia.
Qed.

(** * Integers *)

Lemma show_int_chars : forall z, Forall (fun c => 0x2D <= c <= 0x39) (show_int z).
Proof.
  assert (A : forall n, Forall (fun c => 0x2D <= c <= 0x39) (show_dec n)).
  { intros n. eapply Forall_impl; [|apply show_dec_chars]. cbn. intros; lia. }
  intros [|p|p]; unfold show_int; try apply A. constructor; [lia|apply A].
Qed.

Lemma show_int_ne : forall z, show_int z <> [].
Proof. intros [|p|p]; unfold show_int; try apply show_dec_ne. congruence. Qed.

Lemma nonwhite_digitish : forall c, 0x2B <= c <= 0x7E -> is_white c = false.
Proof. intros c H. unfold is_white. lia. Qed.

Lemma parse_show_nat : forall lo hi n, (lo <= Z.of_N n <= hi)%Z ->
  parse_signed lo hi (show_dec n) = Some (Z.of_N n).
Proof.
  intros lo hi n H. unfold parse_signed. set (s := show_dec n).
  assert (Hs : exists c t, s = c :: t /\ 0x30 <= c <= 0x39).
  { pose proof (show_dec_chars n) as C.
    pose proof (show_dec_ne n) as NE. fold s in C, NE.
    destruct s as [|c t]; [congruence|]. inversion C; subst. eauto. }
  destruct Hs as (c & t & Es & Hc). rewrite Es.
  replace (c =? 45) with false by lia. replace (c =? 43) with false by lia.
  rewrite <- Es.
  unfold s. rewrite parse_show_dec, digits_undigits by lia.
  replace ((lo <=? Z.of_N n)%Z && (Z.of_N n <=? hi)%Z) with true by lia. reflexivity.
Qed.

Lemma parse_show_int : forall lo hi z, (lo <= z <= hi)%Z -> parse_signed lo hi (show_int z) = Some z.
Proof.
  intros lo hi z H. destruct z as [|p|p].
  - unfold show_int. rewrite parse_show_nat; [f_equal; lia|lia].
  - unfold show_int. rewrite parse_show_nat; [f_equal; lia|lia].
  - unfold parse_signed, show_int. change (45 =? 45) with true. cbv iota beta.
    destruct (show_dec (N.pos p)) eqn:E; [exfalso; eapply show_dec_ne; eassumption|].
    rewrite <- E. rewrite parse_show_dec, digits_undigits by lia.
    replace (- Z.of_N (N.pos p))%Z with (Z.neg p) by lia.
    replace ((lo <=? Z.neg p)%Z && (Z.neg p <=? hi)%Z) with true by lia. reflexivity.
Qed.

Lemma show_int_nonwhite : forall z, Forall (fun c => is_white c = false) (show_int z).
Proof.
  intros z. eapply Forall_impl; [|apply show_int_chars]. cbn. intros c Hc.
  apply nonwhite_digitish. lia.
Qed.

(** Whatever is accepted is in range (integers out of range are errors). *)
Lemma parse_signed_range : forall lo hi s z, parse_signed lo hi s = Some z -> (lo <= z <= hi)%Z.
Proof.
  intros lo hi s z. unfold parse_signed.
  destruct (match s with [] => _ | _ => _ end) as [neg t].
  destruct t; [congruence|].
  destruct (parse_radix_loop _ _ _ _); [|congruence].
  set (v := if neg then _ else _). destruct ((lo <=? v)%Z && (v <=? hi)%Z) eqn:E; [|congruence].
  intros [= <-]. lia.
Qed.

(** * Hexadecimal strings *)

Lemma spells_value : forall c d, spells c d -> hex_value c = Some d.
Proof.
  intros c d H. unfold hex_value.
  destruct H as [[H ->]|[H [->| ->]]].
  - replace ((48 <=? 48 + d) && (48 + d <=? 57)) with true by lia. f_equal. lia.
  - replace ((48 <=? 65 + (d - 10)) && (65 + (d - 10) <=? 57)) with false by lia.
    replace ((65 <=? 65 + (d - 10)) && (65 + (d - 10) <=? 70)) with true by lia. f_equal. lia.
  - replace ((48 <=? 97 + (d - 10)) && (97 + (d - 10) <=? 57)) with false by lia.
    replace ((65 <=? 97 + (d - 10)) && (97 + (d - 10) <=? 70)) with false by lia.
    replace ((97 <=? 97 + (d - 10)) && (97 + (d - 10) <=? 102)) with true by lia. f_equal. lia.
Qed.

Lemma spells_hex_digit : forall d, d < 16 -> spells (hex_digit d) d.
Proof. intros d H. unfold spells, hex_digit. destruct (d <? 10) eqn:E; lia. Qed.

Lemma spells_nonwhite : forall c d, spells c d -> is_white c = false.
Proof. intros c d H. apply nonwhite_digitish. unfold spells in H. lia. Qed.

Definition be_fold (acc : N) (bs : bytes) : N := fold_left (fun a b => a * 256 + b) bs acc.

Lemma parse_hex_even : forall s ds o cur,
  Forall2 spells s ds -> Nat.even (length s) = true ->
  exists bs, parse_hex_loop false cur s o = Ok bs /\ (2 * length bs = length s)%nat /\
             (forall acc, be_fold acc bs = undigits 16 acc ds).
Proof.
  induction s as [s IH] using length_ind. intros ds o cur H E.
  inversion H as [|c d s1 ds1 Hc H1]; subst.
  - exists []. repeat split; reflexivity.
  - inversion H1 as [|c2 d2 s2 ds2 Hc2 H2]; subst; [discriminate|].
    cbn [parse_hex_loop]. rewrite (spells_value _ _ Hc), (spells_value _ _ Hc2).
    destruct (IH s2 ltac:(cbn; lia) ds2 o d H2 E) as (bs & Eb & Lb & Vb).
    rewrite Eb. cbn [bind]. eexists. split; [reflexivity|]. split; [cbn [length]; lia|].
    intros acc. cbn [be_fold fold_left undigits]. change (fold_left _ bs ?a) with (be_fold a bs).
    rewrite Vb. unfold undigits. f_equal. lia.
Qed.

Lemma parse_hex_string_spells : forall s ds o,
  Forall2 spells s ds ->
  exists bs, parse_hex_string s o = Ok bs /\ (2 * length bs <= S (length s))%nat /\
             be_value bs = undigits 16 0 ds.
Proof.
  intros s ds o H. unfold parse_hex_string.
  destruct (Nat.odd (length s)) eqn:E.
  - inversion H as [|c d s1 ds1 Hc H1]; subst; [discriminate|].
    cbn [parse_hex_loop]. rewrite (spells_value _ _ Hc).
    assert (E1 : Nat.even (length s1) = true).
    { cbn [length] in E. rewrite Nat.odd_succ in E. exact E. }
    destruct (parse_hex_even s1 ds1 o 0 H1 E1) as (bs & Eb & Lb & Vb).
    rewrite Eb. cbn [bind]. eexists. split; [reflexivity|]. split; [cbn [length]; lia|].
    unfold be_value. cbn [fold_left undigits]. change (fold_left _ bs ?a) with (be_fold a bs).
    rewrite Vb. unfold undigits. cbn [fold_left]. try (f_equal; lia).
  - assert (E1 : Nat.even (length s) = true) by (rewrite <- Nat.negb_odd, E; reflexivity).
    destruct (parse_hex_even s ds o 0 H E1) as (bs & Eb & Lb & Vb).
    exists bs. split; [exact Eb|]. split; [lia|]. apply Vb.
Qed.

Lemma be_value_zeros : forall n bs, be_value (repeat 0 n ++ bs) = be_value bs.
Proof.
  intros n bs. unfold be_value. rewrite fold_left_app. f_equal.
  induction n; cbn; auto.
Qed.

(** Up to sixteen digits, in either case and surrounded by blanks, denote their numeric value. *)
Lemma handle_of_digits : forall a b s ds o,
  all_white a -> all_white b -> Forall2 spells s ds -> (length s <= 16)%nat ->
  handle_of_string (a ++ s ++ b) o = Ok (undigits 16 0 ds).
Proof.
  intros a b s ds o Ha Hb H L. unfold handle_of_string.
  rewrite trim_surround by assumption. rewrite trim_id.
  2:{ clear - H. induction H; constructor; auto. eapply spells_nonwhite; eassumption. }
  destruct (parse_hex_string_spells s ds o H) as (bs & Eb & Lb & Vb).
  rewrite Eb. cbn [bind]. f_equal. unfold read_u64_be.
  rewrite firstn_all2.
  - rewrite be_value_zeros. exact Vb.
  - rewrite app_length, repeat_length. lia.
Qed.

Lemma show_hex_spells : forall n, Forall2 spells (show_hex n) (digits 16 n).
Proof.
  intros n. unfold show_hex. pose proof (digits_range 16 n ltac:(lia)) as R.
  induction R; constructor; auto. apply spells_hex_digit. assumption.
Qed.

Lemma show_hex_length : forall n k, (0 < k)%nat -> n < 16 ^ N.of_nat k -> (length (show_hex n) <= k)%nat.
Proof.
  intros n k Hk H. unfold show_hex. rewrite map_length. apply digits_fuel_length; [lia|assumption|assumption].
Qed.

Lemma handle_roundtrip : forall h o, is_u64 h = true -> handle_of_string (handle_as_string h) o = Ok h.
Proof.
  intros h o H. unfold handle_as_string.
  rewrite <- (app_nil_r (show_hex h)). change (show_hex h ++ []) with ([] ++ show_hex h ++ []).
  rewrite (handle_of_digits [] [] (show_hex h) (digits 16 h)).
  - rewrite digits_undigits by lia. reflexivity.
  - constructor.
  - constructor.
  - apply show_hex_spells.
  - apply show_hex_length; [lia|]. unfold is_u64 in H. change (16 ^ N.of_nat 16) with 18446744073709551616. lia.
Qed.

(** * Binary values *)

Lemma zero_pad_two : forall b, b < 256 ->
  zero_pad 2 (show_hex b) = [hex_digit (b / 16); hex_digit (b mod 16)].
Proof.
  intros b H. unfold zero_pad, show_hex, digits.
  destruct (b <? 16) eqn:E.
  - cbn [digits_fuel]. rewrite E. cbn [map length repeat app Nat.sub].
    replace (b / 16) with 0 by lia. replace (b mod 16) with b by lia. reflexivity.
  - assert (Hs : exists f, N.size_nat b = S (S f)).
    { destruct (N.size_nat b) as [|[|f]] eqn:S; eauto; exfalso.
      - pose proof (size_nat_bound b) as B. rewrite S in B. change (2 ^ N.of_nat 0) with 1 in B. lia.
      - pose proof (size_nat_bound b) as B. rewrite S in B. change (2 ^ N.of_nat 1) with 2 in B. lia. }
    destruct Hs as [f ->]. cbn [digits_fuel]. rewrite E.
    replace (b / 16 <? 16) with true by lia. cbn [app map length Nat.sub repeat].
    reflexivity.
Qed.

Lemma parse_hex_binary : forall bs o cur,
  Forall (fun b => is_byte b = true) bs -> parse_hex_loop false cur (show_binary bs) o = Ok bs.
Proof.
  induction bs as [|b bs IH]; intros o cur H; [reflexivity|].
  inversion H as [|? ? Hb Hbs]; subst. unfold is_byte in Hb.
  unfold show_binary. cbn [flat_map]. rewrite zero_pad_two by lia.
  cbn [app parse_hex_loop]. rewrite !hex_value_digit by lia.
  fold (show_binary bs). rewrite IH by assumption. cbn [bind]. do 2 f_equal. lia.
Qed.

Lemma show_binary_even : forall bs, Forall (fun b => is_byte b = true) bs ->
  Nat.odd (length (show_binary bs)) = false.
Proof.
  induction 1 as [|b bs Hb _ IH]; [reflexivity|].
  unfold show_binary. cbn [flat_map]. unfold is_byte in Hb. rewrite zero_pad_two by lia.
  cbn [app length]. exact IH.
Qed.

Lemma binary_text_roundtrip : forall bs o,
  Forall (fun b => is_byte b = true) bs -> parse_hex_string (show_binary bs) o = Ok bs.
Proof.
  intros bs o H. unfold parse_hex_string. rewrite show_binary_even by assumption.
  apply parse_hex_binary. assumption.
Qed.

Lemma show_binary_ascii : forall bs, Forall (fun b => is_byte b = true) bs ->
  Forall (fun c => 0x30 <= c <= 0x46) (show_binary bs).
Proof.
  induction 1 as [|b bs Hb _ IH]; [constructor|].
  unfold show_binary in *. cbn [flat_map]. apply Forall_app. split; [|exact IH].
  unfold is_byte in Hb. rewrite zero_pad_two by lia. unfold hex_digit.
  repeat constructor; match goal with |- context[if ?x then _ else _] => destruct x eqn:? end; lia.
Qed.

(** * UTF-8 *)

Lemma utf8_decode_fuel_encode : forall s fuel,
  Forall (fun c => is_scalar c = true) s -> (length s < fuel)%nat ->
  utf8_decode_fuel fuel (utf8_encode s) = Some s.
Proof.
  induction s as [|c s IH]; intros fuel H L.
  - destruct fuel; [lia|]. reflexivity.
  - inversion H as [|? ? Hc Hs]; subst. cbn [length] in L. destruct fuel as [|f]; [lia|].
    specialize (IH f Hs ltac:(lia)). unfold utf8_encode in *. cbn [flat_map].
    unfold utf8_char at 1.
    destruct (c <? 0x80) eqn:E1.
    { cbn [app utf8_decode_fuel]. rewrite E1, IH. reflexivity. }
    unfold is_scalar in Hc.
    destruct (c <? 0x800) eqn:E2.
    { cbn [app utf8_decode_fuel].
      replace (192 + c / 64 <? 128) with false by lia.
      unfold is_cont.
      replace ((128 <=? 128 + c mod 64) && (128 + c mod 64 <? 192)) with true by lia. cbn [negb].
      replace ((194 <=? 192 + c / 64) && (192 + c / 64 <? 224)) with true by lia.
      rewrite IH. cbn [option_map]. do 2 f_equal. lia. }
    destruct (c <? 0x10000) eqn:E3.
    { cbn [app utf8_decode_fuel].
      replace (224 + c / 4096 <? 128) with false by lia.
      unfold is_cont.
      replace ((128 <=? 128 + (c / 64) mod 64) && (128 + (c / 64) mod 64 <? 192)) with true by lia. cbn [negb].
      replace ((194 <=? 224 + c / 4096) && (224 + c / 4096 <? 224)) with false by lia.
      replace ((128 <=? 128 + c mod 64) && (128 + c mod 64 <? 192)) with true by lia. cbn [negb].
      replace ((224 <=? 224 + c / 4096) && (224 + c / 4096 <? 240)) with true by lia.
      replace ((224 + c / 4096 - 224) * 4096 + (128 + (c / 64) mod 64 - 128) * 64 + (128 + c mod 64 - 128)) with c by lia.
      replace (c <? 2048) with false by lia. unfold is_scalar.
      rewrite Hc. cbn [orb negb]. rewrite IH. reflexivity. }
    { cbn [app utf8_decode_fuel].
      replace (240 + c / 262144 <? 128) with false by lia.
      unfold is_cont.
      replace ((128 <=? 128 + (c / 4096) mod 64) && (128 + (c / 4096) mod 64 <? 192)) with true by lia. cbn [negb].
      replace ((194 <=? 240 + c / 262144) && (240 + c / 262144 <? 224)) with false by lia.
      replace ((128 <=? 128 + (c / 64) mod 64) && (128 + (c / 64) mod 64 <? 192)) with true by lia. cbn [negb].
      replace ((224 <=? 240 + c / 262144) && (240 + c / 262144 <? 240)) with false by lia.
      replace ((128 <=? 128 + c mod 64) && (128 + c mod 64 <? 192)) with true by lia. cbn [negb].
      replace ((240 <=? 240 + c / 262144) && (240 + c / 262144 <? 245)) with true by lia.
      replace ((240 + c / 262144 - 240) * 262144 + (128 + (c / 4096) mod 64 - 128) * 4096
               + (128 + (c / 64) mod 64 - 128) * 64 + (128 + c mod 64 - 128)) with c by lia.
      replace (c <? 65536) with false by lia. unfold is_scalar.
      rewrite Hc. cbn [orb negb]. rewrite IH. reflexivity. }
Qed.

Lemma utf8_encode_length : forall s, (length s <= length (utf8_encode s))%nat.
Proof.
  induction s as [|c s IH]; [cbn; lia|].
  unfold utf8_encode in *. cbn [flat_map]. rewrite app_length. cbn [length].
  enough (1 <= length (utf8_char c))%nat by lia.
  unfold utf8_char. repeat match goal with |- context[if ?x then _ else _] => destruct x end; cbn [length]; lia.
Qed.

Lemma utf8_roundtrip : forall s, Forall (fun c => is_scalar c = true) s -> utf8_decode (utf8_encode s) = Some s.
Proof.
  intros s H. unfold utf8_decode. apply utf8_decode_fuel_encode; [assumption|].
  pose proof (utf8_encode_length s). lia.
Qed.

Lemma utf8_encode_ascii : forall s, Forall (fun c => c < 128) s -> utf8_encode s = s.
Proof.
  induction 1 as [|c s Hc _ IH]; [reflexivity|].
  unfold utf8_encode in *. cbn [flat_map]. unfold utf8_char at 1.
  replace (c <? 128) with true by lia. cbn [app]. f_equal. exact IH.
Qed.

(** Every byte of the encoding of a printable character is at least 0x20. *)
Lemma utf8_encode_no_control : forall s,
  Forall (fun c => 0x20 <= c) s -> Forall (fun b => 0x20 <= b) (utf8_encode s).
Proof.
  induction 1 as [|c s Hc _ IH]; [constructor|].
  unfold utf8_encode in *. cbn [flat_map]. apply Forall_app. split; [|exact IH].
  unfold utf8_char. repeat match goal with |- context[if ?x then _ else _] => destruct x eqn:? end;
    repeat constructor; lia.
Qed.

Lemma utf8_encode_bytes : forall s,
  Forall (fun c => is_scalar c = true) s -> Forall (fun b => is_byte b = true) (utf8_encode s).
Proof.
  induction 1 as [|c s Hc _ IH]; [constructor|].
  unfold utf8_encode in *. cbn [flat_map]. apply Forall_app. split; [|exact IH].
  unfold is_scalar in Hc. unfold utf8_char, is_byte.
  repeat match goal with |- context[if ?x then _ else _] => destruct x eqn:? end;
    repeat constructor; lia.
Qed.

(** * Decoding ASCII *)

Lemma win1252_ascii : forall s, Forall (fun c => c < 128) s -> win1252_decode s = s.
Proof.
  induction 1 as [|c s Hc _ IH]; [reflexivity|].
  cbn [win1252_decode map]. unfold win1252_byte at 1.
  replace ((128 <=? c) && (c <? 160)) with false by lia. f_equal. exact IH.
Qed.

(** No byte order mark: the declared encoding is used. *)
Definition no_bom (bs : bytes) : bool :=
  match bs with
  | a :: b :: r =>
      negb ((a =? 0xFF) && (b =? 0xFE)) && negb ((a =? 0xFE) && (b =? 0xFF)) &&
      match r with c :: _ => negb ((a =? 0xEF) && (b =? 0xBB) && (c =? 0xBF)) | [] => true end
  | _ => true
  end.

Lemma decode_no_bom : forall enc bs, no_bom bs = true ->
  decode enc bs = match enc with WINDOWS_1252 => Some (win1252_decode bs) | UTF_8 => utf8_decode bs end.
Proof.
  intros enc bs H. unfold decode. unfold no_bom in H.
  assert (A : forall (x : N) (T : Type) (a b : T), x <> 0xEF -> x <> 0xFF -> x <> 0xFE -> True) by trivial.
  destruct bs as [|a [|b r]]; try reflexivity.
  - destruct a as [|a]; try reflexivity.
    do 8 (destruct a as [a|a|]; try reflexivity).
  - destruct (a =? 0xEF) eqn:E1.
    + apply N.eqb_eq in E1. subst a. destruct (b =? 0xBB) eqn:E2.
      * apply N.eqb_eq in E2. subst b. destruct r as [|c r]; [reflexivity|].
        destruct (c =? 0xBF) eqn:E3.
        -- apply N.eqb_eq in E3. subst c. discriminate.
        -- destruct c as [|c]; try reflexivity.
           do 8 (destruct c as [c|c|]; try reflexivity). discriminate.
      * destruct b as [|b]; try reflexivity.
        do 8 (destruct b as [b|b|]; try reflexivity). discriminate.
    + destruct (a =? 0xFF) eqn:E2; [|destruct (a =? 0xFE) eqn:E3].
      * apply N.eqb_eq in E2. subst a. destruct (b =? 0xFE) eqn:E3.
        -- apply N.eqb_eq in E3. subst b. discriminate.
        -- destruct b as [|b]; try reflexivity.
           do 8 (destruct b as [b|b|]; try reflexivity). discriminate.
      * apply N.eqb_eq in E3. subst a. destruct (b =? 0xFF) eqn:E4.
        -- apply N.eqb_eq in E4. subst b. discriminate.
        -- destruct b as [|b]; try reflexivity.
           do 8 (destruct b as [b|b|]; try reflexivity). discriminate.
      * destruct a as [|a]; try reflexivity.
        do 8 (destruct a as [a|a|]; try reflexivity); discriminate.
Qed.

Lemma no_bom_ascii : forall bs, Forall (fun c => c < 128) bs -> no_bom bs = true.
Proof.
  intros bs H. destruct H as [|a bs Ha H]; [reflexivity|].
  destruct H as [|b bs Hb H]; [reflexivity|]. unfold no_bom.
  replace (a =? 255) with false by lia. replace (a =? 254) with false by lia.
  replace (a =? 239) with false by lia. cbn. destruct bs; reflexivity.
Qed.

Lemma decode_ascii : forall enc bs, Forall (fun c => c < 128) bs -> decode enc bs = Some bs.
Proof.
  intros enc bs H. rewrite decode_no_bom by (apply no_bom_ascii; assumption).
  destruct enc.
  - f_equal. apply win1252_ascii. assumption.
  - rewrite <- (utf8_encode_ascii bs) at 1 by assumption. apply utf8_roundtrip.
    eapply Forall_impl; [|exact H]. intros c Hc. cbv beta in Hc. unfold is_scalar. lia.
Qed.

Lemma utf8_no_bom : forall s,
  Forall (fun c => is_scalar c = true) s -> hd 0 s <> 0xFEFF -> no_bom (utf8_encode s) = true.
Proof.
  intros s H Hd. destruct H as [|c s Hc Hs]; [reflexivity|]. cbn [hd] in Hd.
  unfold utf8_encode. cbn [flat_map]. fold (utf8_encode s).
  unfold is_scalar in Hc. unfold utf8_char.
  assert (A : forall a b r, a <> 0xFF -> a <> 0xFE -> ~ (a = 0xEF /\ b = 0xBB /\ hd 0 r = 0xBF) ->
              no_bom (a :: b :: r) = true).
  { intros a b r H1 H2 H3. unfold no_bom.
    replace (a =? 255) with false by lia. replace (a =? 254) with false by lia. cbn [andb negb].
    destruct r as [|x r]; [reflexivity|]. cbn [hd] in H3. lia. }
  destruct (c <? 128) eqn:E1; [|destruct (c <? 2048) eqn:E2; [|destruct (c <? 65536) eqn:E3]]; cbn [app].
  - destruct (utf8_encode s) as [|b r]; [reflexivity|]. apply A; lia.
  - apply A; lia.
  - apply A; [lia|lia|]. cbn [hd]. lia.
  - apply A; lia.
Qed.

Lemma decode_utf8_encode : forall s,
  Forall (fun c => is_scalar c = true) s -> hd 0 s <> 0xFEFF -> decode UTF_8 (utf8_encode s) = Some s.
Proof.
  intros s H Hd. rewrite decode_no_bom by (apply utf8_no_bom; assumption). apply utf8_roundtrip. assumption.
Qed.

(** * Unicode escapes *)

Lemma parse_radix_bound : forall s acc n,
  parse_radix_loop hex_value 16 acc s = Some n -> n < (acc + 1) * 16 ^ N.of_nat (length s).
Proof.
  induction s as [|c s IH]; intros acc n H.
  - cbn in H. injection H as <-. cbn [length]. change (N.of_nat 0) with 0. rewrite N.pow_0_r. lia.
  - cbn [parse_radix_loop] in H. destruct (hex_value c) as [d|] eqn:E; [|discriminate].
    apply IH in H. cbn [length]. replace (N.of_nat (S (length s))) with (N.succ (N.of_nat (length s))) by lia.
    rewrite N.pow_succ_r'.
    assert (d < 16).
    { unfold hex_value in E.
      repeat match type of E with (if ?x then _ else _) = _ => destruct x eqn:? end; inversion E; lia. }
    eapply N.lt_le_trans; [exact H|]. rewrite N.mul_assoc. apply N.mul_le_mono_r. lia.
Qed.

Lemma u32_from_hex_bound : forall s n, length s = 4%nat -> u32_from_hex s = Some n -> n < 0x10000.
Proof.
  intros s n L H. unfold u32_from_hex in H. cbv zeta in H.
  assert (A : forall u : rstring, (length u <= 4)%nat ->
    match u with [] => None | _ => match parse_radix_loop hex_value 16 0 u with
      | Some n => if n <? 4294967296 then Some n else None | None => None end end = Some n -> n < 0x10000).
  { clear. intros u L H. destruct u as [|x u]; [discriminate|].
    destruct (parse_radix_loop hex_value 16 0 (x :: u)) as [m|] eqn:E; [|discriminate H].
    destruct (m <? 4294967296); [|discriminate H]. injection H as <-.
    apply parse_radix_bound in E. eapply N.lt_le_trans; [exact E|].
    change 0x10000 with ((0 + 1) * 16 ^ 4). apply N.mul_le_mono_l. apply N.pow_le_mono_r; lia. }
  destruct s as [|c t]; [discriminate L|]. destruct (c =? 43).
  - apply (A t); [cbn [length] in L; lia|exact H].
  - apply (A (c :: t)); [lia|exact H].
Qed.

Lemma un_ascii_window : forall w t, length w = 6%nat ->
  un_escape_ascii_loop None (backslash :: w ++ t) = decode_seq (backslash :: w) ++ un_escape_ascii_loop None t.
Proof.
  intros w t L.
  destruct w as [|a [|b [|c [|d [|e [|f [|g w]]]]]]]; try discriminate. reflexivity.
Qed.

Lemma un_ascii_short_nil : forall s q, (length q + length s < 7)%nat ->
  un_escape_ascii_loop (Some q) s = [].
Proof.
  induction s as [|c s IH]; intros q L; [reflexivity|]. cbn [length] in L.
  cbn [un_escape_ascii_loop]. replace (length (q ++ [c]) =? 7)%nat with false.
  - apply IH. rewrite app_length. cbn [length]. lia.
  - rewrite app_length. cbn [length]. lia.
Qed.

Lemma decode_seq_verbatim : forall w,
  length w = 6%nat -> firstn 2 w <> str "U+" -> decode_seq (backslash :: w) = backslash :: w.
Proof.
  intros w L H. destruct w as [|a [|b w]]; try discriminate. unfold decode_seq.
  change (backslash =? 92) with true. cbn [andb].
  destruct (a =? 0x55) eqn:Ea; [|reflexivity]. destruct (b =? 0x2B) eqn:Eb; [|reflexivity].
  exfalso. apply H. apply N.eqb_eq in Ea, Eb. subst. reflexivity.
Qed.

Lemma decode_seq_escape : forall h, length h = 4%nat ->
  exists x, decode_seq (backslash :: str "U+" ++ h) = [x] /\ x < 0x10000.
Proof.
  intros h L. cbn [str list_ascii_of_string map app]. unfold decode_seq.
  change ((backslash =? 92) && (N_of_ascii "U" =? 85) && (N_of_ascii "+" =? 43)) with true. cbn iota.
  destruct (u32_from_hex h) as [n|] eqn:E.
  - apply u32_from_hex_bound in E; [|assumption].
    destruct (is_scalar n).
    + exists n. split; [reflexivity|assumption].
    + exists qmark. split; [reflexivity|unfold qmark; lia].
  - eexists; split; [reflexivity|]. unfold qmark. lia.
Qed.

Lemma zero_pad_length : forall w s, (length s <= w)%nat -> length (zero_pad w s) = w.
Proof. intros. unfold zero_pad. rewrite app_length, repeat_length. lia. Qed.

Lemma parse_zero_pad : forall w s acc,
  acc = 0 -> parse_radix_loop hex_value 16 acc (zero_pad w s) = parse_radix_loop hex_value 16 0 s.
Proof.
  intros w s acc ->. unfold zero_pad. induction (w - length s)%nat as [|k IH]; [reflexivity|].
  cbn [repeat app parse_radix_loop]. change (hex_value 48) with (Some 0). cbn iota beta. exact IH.
Qed.

Lemma decode_unicode_escape : forall c, is_scalar c = true -> c < 0x10000 ->
  decode_seq (backslash :: str "U+" ++ zero_pad 4 (show_hex c)) = [c].
Proof.
  intros c Hs Hc. cbn [str list_ascii_of_string map app]. unfold decode_seq.
  change ((backslash =? 92) && (N_of_ascii "U" =? 85) && (N_of_ascii "+" =? 43)) with true. cbn iota.
  assert (E : u32_from_hex (zero_pad 4 (show_hex c)) = Some c).
  { unfold u32_from_hex.
    assert (NP : forall d t, zero_pad 4 (show_hex c) = d :: t -> (d =? 43) = false).
    { intros d t E. assert (F : Forall (fun x => 0x30 <= x) (zero_pad 4 (show_hex c))).
      { unfold zero_pad. apply Forall_app. split.
        - apply Forall_forall. intros x Hx. apply repeat_spec in Hx. subst. lia.
        - eapply Forall_impl; [|apply show_hex_chars]. cbn. intros; lia. }
      rewrite E in F. inversion F; subst. lia. }
    destruct (zero_pad 4 (show_hex c)) as [|d t] eqn:E.
    { exfalso. unfold zero_pad in E. apply app_eq_nil in E as [_ E]. eapply show_hex_ne. exact E. }
    rewrite (NP d t eq_refl). rewrite <- E.
    rewrite parse_zero_pad by reflexivity. rewrite parse_show_hex, digits_undigits by lia.
    replace (c <? 4294967296) with true by lia. reflexivity. }
  rewrite E, Hs. reflexivity.
Qed.

(** What a string must look like to survive (see TextProps.v). *)
Inductive survives : rstring -> Prop :=
| survives_nil : survives []
| survives_char : forall c s, c <> backslash -> c < 0x10000 -> survives s -> survives (c :: s)
| survives_window : forall w s, length w = 6%nat -> Forall (fun c => c < 128) w ->
    firstn 2 w <> str "U+" -> survives s -> survives (backslash :: w ++ s).

Lemma escape_unicode_ascii_id : forall w s, Forall (fun c => c < 128) w ->
  escape_unicode_to_ascii (w ++ s) = w ++ escape_unicode_to_ascii s.
Proof.
  induction 1 as [|c w Hc _ IH]; [reflexivity|].
  cbn [app]. unfold escape_unicode_to_ascii in *. cbn [flat_map]. unfold escape_unicode_char at 1.
  replace (128 <=? c) with false by lia. cbn [app]. f_equal. exact IH.
Qed.

Lemma un_ascii_escape_char : forall c t,
  is_scalar c = true -> c <> backslash -> c < 0x10000 ->
  un_escape_ascii_to_unicode (escape_unicode_char c ++ t) = c :: un_escape_ascii_to_unicode t.
Proof.
  intros c t Hs Hb Hc. unfold un_escape_ascii_to_unicode, escape_unicode_char.
  destruct (128 <=? c) eqn:E.
  - change (str "\U+" ++ ?x) with (backslash :: (str "U+" ++ x)).
    rewrite <- app_comm_cons. rewrite un_ascii_window.
    + rewrite decode_unicode_escape by assumption. reflexivity.
    + rewrite app_length. rewrite zero_pad_length; [reflexivity|].
      apply show_hex_length; [lia|]. change (16 ^ N.of_nat 4) with 65536. assumption.
  - cbn [app un_escape_ascii_loop]. replace (c =? backslash) with false by lia. reflexivity.
Qed.

Lemma survives_roundtrip : forall s, Forall (fun c => is_scalar c = true) s -> survives s ->
  un_escape_ascii_to_unicode (escape_unicode_to_ascii s) = s.
Proof.
  intros s Hs H. induction H as [|c s Hb Hc H IH|w s L A N H IH].
  - reflexivity.
  - inversion Hs as [|? ? S1 S2]; subst. unfold escape_unicode_to_ascii. cbn [flat_map].
    rewrite un_ascii_escape_char by assumption. f_equal. apply IH. assumption.
  - inversion Hs as [|? ? S1 S2]; subst. apply Forall_app in S2 as [S2 S3].
    change (backslash :: w ++ s) with ([backslash] ++ (w ++ s)).
    rewrite escape_unicode_ascii_id by (repeat constructor; unfold backslash; lia).
    rewrite escape_unicode_ascii_id by assumption. cbn [app].
    unfold un_escape_ascii_to_unicode. rewrite un_ascii_window by assumption.
    rewrite decode_seq_verbatim by assumption. cbn [app]. do 2 f_equal. apply IH. assumption.
Qed.

Lemma escape_cancel : forall w u t, 
  escape_unicode_to_ascii (w ++ u) = w ++ t ->
  Forall (fun c => c < 128) w /\ escape_unicode_to_ascii u = t.
Proof.
  induction w as [|x w IH]; intros u t H; [split; [constructor|exact H]|].
  cbn [app] in H. unfold escape_unicode_to_ascii in H. cbn [flat_map] in H.
  unfold escape_unicode_char in H at 1. destruct (128 <=? x) eqn:E.
  - exfalso. change (str "\U+") with (backslash :: str "U+") in H. cbn [app] in H.
    injection H as H _. unfold backslash in H. lia.
  - cbn [app] in H. injection H as H. apply IH in H as [H1 H2]. split; [|assumption].
    constructor; [lia|assumption].
Qed.

Lemma escape_head_ascii : forall s c t, c <> backslash ->
  escape_unicode_to_ascii s = c :: t -> exists s', s = c :: s' /\ t = escape_unicode_to_ascii s'.
Proof.
  intros [|x s] c t Hc H; [discriminate|]. unfold escape_unicode_to_ascii in H. cbn [flat_map] in H.
  unfold escape_unicode_char in H at 1. destruct (128 <=? x) eqn:E.
  - exfalso. change (str "\U+") with (backslash :: str "U+") in H. cbn [app] in H.
    injection H as H _. congruence.
  - cbn [app] in H. injection H as -> <-. eauto.
Qed.

Lemma roundtrip_survives : forall s,
  Forall (fun c => is_scalar c = true) s ->
  (forall a b, s <> a ++ str "\U+" ++ b) ->
  un_escape_ascii_to_unicode (escape_unicode_to_ascii s) = s -> survives s.
Proof.
  induction s as [s IH] using length_ind. intros Hs Hl H.
  destruct s as [|c s]; [constructor|]. inversion Hs as [|? ? S1 S2]; subst.
  assert (Hl' : forall a b, s <> a ++ str "\U+" ++ b).
  { intros a b E. apply (Hl (c :: a) b). rewrite E. reflexivity. }
  destruct (N.eq_dec c backslash) as [->|Hb].
  - assert (Ee : escape_unicode_to_ascii (backslash :: s) = backslash :: escape_unicode_to_ascii s).
    { unfold escape_unicode_to_ascii. cbn [flat_map]. unfold escape_unicode_char at 1.
      change (128 <=? backslash) with false. reflexivity. }
    rewrite Ee in H. unfold un_escape_ascii_to_unicode in H.
    set (t := escape_unicode_to_ascii s) in *.
    destruct (Nat.lt_ge_cases (length t) 6) as [L|L].
    { exfalso. cbn [un_escape_ascii_loop] in H. change (backslash =? backslash) with true in H. cbn iota in H.
      rewrite un_ascii_short_nil in H by (cbn [length]; lia). discriminate. }
    assert (Et : t = firstn 6 t ++ skipn 6 t) by (symmetry; apply firstn_skipn).
    set (w := firstn 6 t) in *. set (t' := skipn 6 t) in *.
    assert (Lw : length w = 6%nat) by (unfold w; rewrite firstn_length; lia).
    rewrite Et in H. rewrite un_ascii_window in H by assumption.
    destruct (list_eq_dec N.eq_dec (firstn 2 w) (str "U+")) as [Eu|Nu].
    + exfalso.
      destruct w as [|w0 [|w1 w2]] eqn:Ew; try discriminate. cbn [firstn] in Eu.
      change (str "U+") with [0x55; 0x2B] in Eu. injection Eu as -> ->.
      cbn [app] in Et. unfold t in Et.
      destruct (escape_head_ascii s 0x55 _ ltac:(discriminate) Et) as (s1 & E1 & Et1).
      destruct (escape_head_ascii s1 0x2B _ ltac:(discriminate) (eq_sym Et1)) as (s2 & E2 & _).
      apply (Hl [] s2). subst s s1. reflexivity.
    + rewrite decode_seq_verbatim in H by assumption. cbn [app] in H. injection H as H.
      set (u := un_escape_ascii_loop None t') in *.
      assert (Ec : escape_unicode_to_ascii (w ++ u) = w ++ t') by (rewrite H; exact Et).
      apply escape_cancel in Ec as [Aw Eu]. rewrite <- H. apply survives_window; auto.
      apply IH.
      * rewrite <- H. cbn [length]. rewrite app_length. lia.
      * rewrite <- H in S2. apply Forall_app in S2. tauto.
      * intros a b E. apply (Hl' (w ++ a) b). rewrite <- H, E, app_assoc. reflexivity.
      * rewrite Eu. reflexivity.
  - destruct (N.lt_ge_cases c 0x10000) as [Hc|Hc].
    + unfold escape_unicode_to_ascii in H. cbn [flat_map] in H.
      rewrite un_ascii_escape_char in H by assumption. injection H as H.
      constructor; auto.
    + exfalso. unfold escape_unicode_to_ascii in H. cbn [flat_map] in H.
      unfold escape_unicode_char in H at 1. replace (128 <=? c) with true in H by lia.
      set (z := zero_pad 4 (show_hex c)) in *.
      assert (Lz : (4 <= length z)%nat).
      { unfold z, zero_pad. rewrite app_length, repeat_length. lia. }
      assert (Ez : z = firstn 4 z ++ skipn 4 z) by (symmetry; apply firstn_skipn).
      rewrite Ez in H. change (str "\U+") with (backslash :: str "U+") in H.
      rewrite <- !app_comm_cons in H. rewrite <- !app_assoc in H. rewrite (app_assoc (str "U+")) in H.
      unfold un_escape_ascii_to_unicode in H.
      rewrite un_ascii_window in H by (rewrite app_length, firstn_length; change (length (str "U+")) with 2%nat; lia).
      destruct (decode_seq_escape (firstn 4 z)) as (x & Ex & Hx); [rewrite firstn_length; lia|].
      rewrite Ex in H. cbn [app] in H. injection H as H _. lia.
Qed.

Lemma escape_unicode_ascii : forall s,
  Forall (fun c => 0x20 <= c) s -> Forall (fun c => 0x20 <= c < 0x80) (escape_unicode_to_ascii s).
Proof.
  induction 1 as [|c s Hc _ IH]; [constructor|].
  unfold escape_unicode_to_ascii in *. cbn [flat_map]. apply Forall_app. split; [|exact IH].
  unfold escape_unicode_char. destruct (128 <=? c) eqn:E.
  - apply Forall_app. split; [repeat constructor; cbn; lia|].
    unfold zero_pad. apply Forall_app. split.
    + apply Forall_forall. intros x Hx. apply repeat_spec in Hx. subst. lia.
    + eapply Forall_impl; [|apply show_hex_chars]. cbn. intros; lia.
  - repeat constructor; lia.
Qed.

Lemma survives_plain : forall s, Forall (fun c => c <> backslash /\ c < 0x10000) s -> survives s.
Proof. induction 1 as [|c s [H1 H2] _ IH]; constructor; auto. Qed.

(** The complete string pipeline of text files up to R2004. *)
Lemma ascii_pipeline_roundtrip : forall s,
  Forall (fun c => is_scalar c = true) s -> survives (escape_control_characters s) ->
  un_escape_string (un_escape_ascii_to_unicode (escape_unicode_to_ascii (escape_control_characters s))) = s.
Proof.
  intros s H S. rewrite survives_roundtrip; [apply un_escape_escape| |assumption].
  apply escape_control_scalar. assumption.
Qed.

Lemma escape_control_plain : forall s,
  Forall (fun c => c <> 0x1C /\ c <> backslash /\ c < 0x10000) s ->
  Forall (fun c => c <> backslash /\ c < 0x10000) (escape_control_characters s).
Proof.
  induction 1 as [|c s [H1 [H2 H3]] _ IH]; [constructor|].
  unfold escape_control_characters in *. cbn [flat_map]. apply Forall_app. split; [|exact IH].
  unfold escape_control_char, needs_escaping.
  destruct ((c <=? 0x1F) || (c =? 0x5E)) eqn:E.
  - repeat constructor; unfold caret, backslash in *; try lia; destruct (c =? 0x5E) eqn:E2; lia.
  - repeat constructor; assumption.
Qed.

(** * Integers outside the range of their type *)
Lemma parse_show_int_out : forall lo hi z, (z < lo \/ hi < z)%Z -> (lo <= 0 <= hi)%Z -> parse_signed lo hi (show_int z) = None.
Proof.
  assert (A : forall lo hi n, (Z.of_N n < lo \/ hi < Z.of_N n)%Z -> parse_signed lo hi (show_dec n) = None).
  { intros lo hi n H. unfold parse_signed. set (s := show_dec n).
    assert (Hs : exists c t, s = c :: t /\ 0x30 <= c <= 0x39).
    { pose proof (show_dec_chars n) as C. pose proof (show_dec_ne n) as NE. fold s in C, NE.
      destruct s as [|c t]; [congruence|]. inversion C; subst. eauto. }
    destruct Hs as (c & t & Es & Hc). rewrite Es.
    replace (c =? 45) with false by lia. replace (c =? 43) with false by lia.
    rewrite <- Es. unfold s. rewrite parse_show_dec, digits_undigits by lia. cbv zeta.
    replace ((lo <=? Z.of_N n)%Z && (Z.of_N n <=? hi)%Z) with false by lia. reflexivity. }
  intros lo hi z H L. destruct z as [|p|p]; [unfold show_int; apply A; lia|unfold show_int; apply A; lia|].
  unfold parse_signed, show_int. change (45 =? 45) with true. cbv iota beta.
  destruct (show_dec (N.pos p)) eqn:E; [exfalso; eapply show_dec_ne; eassumption|].
  rewrite <- E. rewrite parse_show_dec, digits_undigits by lia. cbv zeta.
  replace ((lo <=? - Z.of_N (N.pos p))%Z && (- Z.of_N (N.pos p) <=? hi)%Z) with false by lia. reflexivity.
Qed.

Lemma trim_show_int_surround : forall a b z, all_white a -> all_white b -> trim (a ++ show_int z ++ b) = show_int z.
Proof. intros. rewrite trim_surround by assumption. apply trim_id. apply show_int_nonwhite. Qed.

Lemma parse_i32_show : forall a b z o, all_white a -> all_white b ->
  parse_i32 (a ++ show_int z ++ b) o = if is_i32 z then Ok z else Err (ParseIntError o).
Proof.
  intros a b z o Ha Hb. unfold parse_i32, is_i32. rewrite trim_show_int_surround by assumption.
  destruct ((_ <=? z)%Z && _) eqn:E; [rewrite parse_show_int by lia|rewrite parse_show_int_out by lia]; reflexivity.
Qed.
Lemma parse_i64_show : forall a b z o, all_white a -> all_white b ->
  parse_i64 (a ++ show_int z ++ b) o = if is_i64 z then Ok z else Err (ParseIntError o).
Proof.
  intros a b z o Ha Hb. unfold parse_i64, is_i64. rewrite trim_show_int_surround by assumption.
  destruct ((_ <=? z)%Z && _) eqn:E; [rewrite parse_show_int by lia|rewrite parse_show_int_out by lia]; reflexivity.
Qed.

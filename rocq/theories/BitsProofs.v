(** Lemmas for C35, C36 and C37. *)
From Coq Require Import Btauto.
From Verif Require Import Base BitsModel FlagData BitsSpec.
Open Scope Z_scope.
Set Default Goal Selector "!".

(** * Flags *)

Definition masks_ok (fs : list flag) : bool :=
  forallb (fun a => (fl_get a =? fl_set a) && (0 <? fl_get a) && (fl_get a <? 2147483648) &&
     forallb (fun b => String.eqb (fl_name a) (fl_name b) || (Z.land (fl_get a) (fl_get b) =? 0)) fs) fs.

Lemma all_masks_ok : forallb (fun '(_, fs) => masks_ok fs) flag_words = true.
Proof. vm_compute. reflexivity. Qed.

Lemma masks_ok_spec : forall fs a b, masks_ok fs = true -> In a fs -> In b fs ->
  fl_get a = fl_set a /\ 0 < fl_get a < 2147483648 /\ (fl_name a <> fl_name b -> Z.land (fl_get a) (fl_get b) = 0).
Proof.
  intros fs a b H Ha Hb. unfold masks_ok in H. rewrite forallb_forall in H. specialize (H a Ha).
  repeat rewrite andb_true_iff in H. destruct H as [[[H1 H2] H3] H4].
  rewrite forallb_forall in H4. specialize (H4 b Hb). rewrite orb_true_iff in H4.
  split; [lia|]. split; [lia|]. intros N. destruct H4 as [H4|H4]; [|lia].
  apply String.eqb_eq in H4. congruence.
Qed.

Lemma write_flag_bit : forall f v w i, 0 <= i ->
  Z.testbit (write_flag f v w) i = if Z.testbit (fl_set f) i then v else Z.testbit w i.
Proof.
  intros f v w i Hi. unfold write_flag. destruct v.
  - rewrite Z.lor_spec. destruct (Z.testbit (fl_set f) i); btauto.
  - rewrite Z.land_spec, Z.lnot_spec by lia. destruct (Z.testbit (fl_set f) i); btauto.
Qed.

Lemma land_zero_bits : forall a b i, Z.land a b = 0 -> Z.testbit a i && Z.testbit b i = false.
Proof. intros a b i H. rewrite <- Z.land_spec, H. apply Z.bits_0. Qed.

Lemma read_flag_ext : forall f w w', (forall i, 0 <= i -> Z.testbit (fl_get f) i = true -> Z.testbit w i = Z.testbit w' i) ->
  read_flag f w = read_flag f w'.
Proof.
  intros f w w' H. unfold read_flag. do 2 f_equal. apply Z.bits_inj'. intros i Hi.
  rewrite !Z.land_spec. destruct (Z.testbit (fl_get f) i) eqn:E; [|btauto]. rewrite (H i Hi E). reflexivity.
Qed.

Lemma read_after_write : forall f v w, fl_get f = fl_set f -> fl_get f <> 0 -> read_flag f (write_flag f v w) = v.
Proof.
  intros f v w E Hn. unfold read_flag, write_flag. rewrite <- E. destruct v.
  - rewrite Z.land_lor_distr_l, Z.land_diag, Z.lor_comm.
    destruct (Z.eqb_spec (Z.lor (fl_get f) (Z.land w (fl_get f))) 0) as [H|H]; [|reflexivity].
    apply Z.lor_eq_0_iff in H. tauto.
  - rewrite <- Z.land_assoc, (Z.land_comm (Z.lnot _)), Z.land_lnot_diag, Z.land_0_r. reflexivity.
Qed.

Lemma read_other : forall a b v w, fl_get a = fl_set a -> Z.land (fl_get a) (fl_get b) = 0 ->
  read_flag b (write_flag a v w) = read_flag b w.
Proof.
  intros a b v w E D. apply read_flag_ext. intros i Hi Hb. rewrite write_flag_bit by lia.
  rewrite <- E. pose proof (land_zero_bits _ _ i D) as L. rewrite Hb, andb_true_r in L. rewrite L. reflexivity.
Qed.

Lemma i32_shiftr : forall z, is_i32 z = true <-> (Z.shiftr z 31 = 0 \/ Z.shiftr z 31 = -1).
Proof. intros z. unfold is_i32. rewrite Z.shiftr_div_pow2 by lia. change (2 ^ 31) with 2147483648. lia. Qed.
Lemma write_flag_i32 : forall f v w, 0 <= fl_set f < 2147483648 -> is_i32 w = true -> is_i32 (write_flag f v w) = true.
Proof.
  intros f v w Hf Hw. apply i32_shiftr. apply i32_shiftr in Hw. unfold write_flag.
  assert (S : Z.shiftr (fl_set f) 31 = 0) by (rewrite Z.shiftr_div_pow2 by lia; change (2 ^ 31) with 2147483648; lia).
  destruct v.
  - rewrite Z.shiftr_lor, S, Z.lor_0_r. exact Hw.
  - assert (L : Z.shiftr (Z.lnot (fl_set f)) 31 = -1).
    { rewrite Z.shiftr_div_pow2 by lia. unfold Z.lnot. change (2 ^ 31) with 2147483648. lia. }
    rewrite Z.shiftr_land, L, Z.land_m1_r. exact Hw.
Qed.

Lemma lookup_flag_in : forall fs n f, lookup_flag n fs = Some f -> In f fs /\ fl_name f = n.
Proof.
  induction fs as [|g r IH]; intros n f H; cbn in H; [discriminate|].
  destruct (String.eqb_spec (fl_name g) n) as [E|E].
  - injection H as <-. split; [left; reflexivity|assumption].
  - apply IH in H. split; [right|]; tauto.
Qed.

Lemma words_ok : forall owner fs, In (owner, fs) flag_words -> masks_ok fs = true.
Proof.
  intros owner fs H. pose proof all_masks_ok as A. rewrite forallb_forall in A. exact (A _ H).
Qed.

Lemma flags_independent : forall owner fs, In (owner, fs) flag_words ->
  forall prog name w before, get_flag fs name w = Some before ->
  get_flag fs name (run_assignments fs prog w) = Some (last_assigned name prog before).
Proof.
  intros owner fs H prog name w before Hb. apply words_ok in H. unfold get_flag in *.
  destruct (lookup_flag name fs) as [f|] eqn:Hf; cbn [option_map] in *; [|discriminate Hb].
  injection Hb as Hb. f_equal. pose proof (lookup_flag_in _ _ _ Hf) as [Hin Hname].
  unfold run_assignments, last_assigned. revert w before Hb.
  induction prog as [|[n v] prog IH]; intros w before Hb; cbn [fold_left]; [assumption|].
  apply IH. destruct (String.eqb_spec n name) as [E|E].
  - subst n. rewrite Hf. destruct (masks_ok_spec fs f f H Hin Hin) as (G1 & G2 & _). apply read_after_write; lia.
  - destruct (lookup_flag n fs) as [g|] eqn:Eg; [|assumption].
    apply lookup_flag_in in Eg. destruct Eg as [Gin Gname].
    destruct (masks_ok_spec fs g f H Gin Hin) as (G1 & G2 & G3). rewrite read_other; [assumption|assumption|].
    apply G3. congruence.
Qed.

Lemma other_bits_kept : forall owner fs, In (owner, fs) flag_words ->
  forall prog w i, 0 <= i -> flag_bit fs i = false ->
  Z.testbit (run_assignments fs prog w) i = Z.testbit w i.
Proof.
  intros owner fs H prog w i Hi Hb. apply words_ok in H. unfold run_assignments. revert w.
  induction prog as [|[n v] prog IH]; intros w; cbn [fold_left]; [reflexivity|].
  rewrite IH. destruct (lookup_flag n fs) as [g|] eqn:Eg; [|reflexivity].
  apply lookup_flag_in in Eg. destruct Eg as [Gin _].
  destruct (masks_ok_spec fs g g H Gin Gin) as (G1 & _ & _).
  rewrite write_flag_bit by assumption. rewrite <- G1.
  destruct (Z.testbit (fl_get g) i) eqn:E; [|reflexivity].
  exfalso. unfold flag_bit in Hb. assert (X : existsb (fun f => Z.testbit (fl_get f) i) fs = true).
  { apply existsb_exists. exists g. tauto. }
  congruence.
Qed.

Lemma assignments_fit : forall owner fs, In (owner, fs) flag_words ->
  forall prog w, is_i32 w = true -> is_i32 (run_assignments fs prog w) = true.
Proof.
  intros owner fs H prog. apply words_ok in H. unfold run_assignments.
  induction prog as [|[n v] prog IH]; intros w Hw; cbn [fold_left]; [assumption|].
  apply IH. destruct (lookup_flag n fs) as [g|] eqn:Eg; [|assumption].
  apply lookup_flag_in in Eg. destruct Eg as [Gin _].
  destruct (masks_ok_spec fs g g H Gin Gin) as (G1 & G2 & _). apply write_flag_i32; [lia|assumption].
Qed.

(** * Dimension words *)

Lemma dim_roundtrip : forall d, dim_of_i16 (dim_to_i16 d) = d.
Proof. intros [t b o u]. destruct t, b, o, u; vm_compute; reflexivity. Qed.

Lemma dim_to_i16_range : forall d, 0 <= dim_to_i16 d < 256.
Proof. intros [t b o u]. destruct t, b, o, u; vm_compute; split; congruence. Qed.

Lemma land_pow_bit : forall w k, 0 <= k -> (Z.land w (2 ^ k) =? 2 ^ k) = Z.testbit w k.
Proof.
  intros w k Hk. destruct (Z.testbit w k) eqn:E.
  - apply Z.eqb_eq. apply Z.bits_inj'. intros i Hi. rewrite Z.land_spec, Z.pow2_bits_eqb by lia.
    destruct (Z.eqb_spec k i) as [<-|N]; [rewrite E|]; btauto.
  - apply Z.eqb_neq. intros H. assert (B : Z.testbit (Z.land w (2 ^ k)) k = Z.testbit (2 ^ k) k) by (rewrite H; reflexivity).
    rewrite Z.land_spec, Z.pow2_bits_true, E in B by lia. discriminate B.
Qed.

Lemma dim_reads_bits : forall w,
  dw_block_only (dim_of_i16 w) = Z.testbit w 5 /\ dw_ordinate_x (dim_of_i16 w) = Z.testbit w 6 /\
  dw_user_location (dim_of_i16 w) = Z.testbit w 7 /\
  (w mod 16 <= 6 -> dimension_type_i16 (dw_type (dim_of_i16 w)) = w mod 16) /\
  (6 < w mod 16 -> dw_type (dim_of_i16 w) = Aligned).
Proof.
  intros w. unfold dim_of_i16. cbn [dw_type dw_block_only dw_ordinate_x dw_user_location].
  split; [exact (land_pow_bit w 5 ltac:(lia))|]. split; [exact (land_pow_bit w 6 ltac:(lia))|].
  split; [exact (land_pow_bit w 7 ltac:(lia))|].
  change 15 with (Z.ones 4). rewrite Z.land_ones by lia. change (2 ^ 4) with 16.
  pose proof (Z.mod_pos_bound w 16 ltac:(lia)) as B. remember (w mod 16) as m eqn:Em. clear Em.
  split; intros Hm.
  - assert (m = 0 \/ m = 1 \/ m = 2 \/ m = 3 \/ m = 4 \/ m = 5 \/ m = 6) as C by lia.
    repeat (destruct C as [->|C]; [reflexivity|]). subst m. reflexivity.
  - assert (m = 7 \/ m = 8 \/ m = 9 \/ m = 10 \/ m = 11 \/ m = 12 \/ m = 13 \/ m = 14 \/ m = 15) as C by lia.
    repeat (destruct C as [->|C]; [reflexivity|]). subst m. reflexivity.
Qed.

Lemma dim_reencode : forall w, 0 <= w < 256 -> w mod 16 <= 6 -> Z.testbit w 4 = false ->
  dim_to_i16 (dim_of_i16 w) = w.
Proof.
  intros w Hw Hm Hb.
  assert (A : forallb (fun n => let w := Z.of_nat n in
     negb (w mod 16 <=? 6) || Z.testbit w 4 || (dim_to_i16 (dim_of_i16 w) =? w)) (seq 0 256) = true) by (vm_compute; reflexivity).
  rewrite forallb_forall in A. specialize (A (Z.to_nat w)). cbv zeta in A. rewrite Z2Nat.id in A by lia.
  rewrite Hb in A. assert (In (Z.to_nat w) (seq 0 256)) as I by (apply in_seq; lia). specialize (A I). lia.
Qed.

(** * Colours *)

Lemma color_one_kind : forall c, c <= 257 -> exists k, has_kind k c = true /\ forall k', has_kind k' c = true -> k' = k.
Proof.
  intros c Hc.
  unfold has_kind, is_by_layer, is_by_block, is_by_entity, is_turned_off, is_index.
  assert (c < 0 \/ c = 0 \/ 1 <= c <= 255 \/ c = 256 \/ c = 257) as D by lia.
  destruct D as [D|[D|[D|[D|D]]]]; [exists KOff|exists KBlock|exists KIndex|exists KLayer|exists KEntity];
  (split; [lia|intros k' H; destruct k'; try reflexivity; exfalso; lia]).
Qed.
Lemma color_no_kind : forall c, 257 < c -> forall k, has_kind k c = false.
Proof. intros c Hc k. destruct k; cbn; unfold is_by_layer, is_by_block, is_by_entity, is_turned_off, is_index; lia. Qed.

Lemma color_index_roundtrip : forall i, (1 <= i < 256)%N -> color_index (color_from_index i) = Some i.
Proof. intros i H. unfold color_index, color_from_index, is_index, as_u8. replace (_ && _) with true by lia. f_equal. lia. Qed.
Lemma color_index_back : forall c i, color_index c = Some i -> color_from_index i = c /\ (1 <= i < 256)%N.
Proof.
  intros c i H. unfold color_index, is_index in H. destruct ((1 <=? c) && (c <=? 255)) eqn:E; [|discriminate H].
  injection H as <-. unfold color_from_index, as_u8. lia.
Qed.

Lemma layer_color_roundtrip : forall c on, is_i16 c = true -> 0 < c \/ (c = 0 /\ on = true) ->
  exists z, writable_color_value c on = Ok z /\ is_i16 z = true /\ read_color_value z = Ok (c, on).
Proof.
  intros c on Hc H. unfold writable_color_value, read_color_value, i16_abs, is_i16 in *.
  replace (c =? -32768) with false by lia. cbn [bind]. eexists. split; [reflexivity|]. split; [destruct on; lia|].
  destruct on.
  - replace (Z.abs c =? -32768) with false by lia. cbn [bind]. do 2 f_equal; lia.
  - replace (- Z.abs c =? -32768) with false by lia. cbn [bind]. do 2 f_equal; lia.
Qed.
Lemma layer_color_never_loses_off : forall c on z, is_i16 c = true -> c <> 0 -> writable_color_value c on = Ok z ->
  read_color_value z = Ok (Z.abs c, on).
Proof.
  intros c on z Hc H0 H. unfold writable_color_value, read_color_value, i16_abs, is_i16 in *.
  destruct (c =? -32768) eqn:E; cbn [bind] in H; [discriminate H|]. injection H as <-.
  destruct on.
  - replace (Z.abs c =? -32768) with false by lia. cbn [bind]. do 2 f_equal; lia.
  - replace (- Z.abs c =? -32768) with false by lia. cbn [bind]. do 2 f_equal; lia.
Qed.

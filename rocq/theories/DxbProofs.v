(** Lemmas for C40. *)
From Coq Require Import Bool.
From Verif Require Import Base F64Model F64Proofs F64Spec F64SpecProofs F32Model F32Proofs F32Spec F32SpecProofs BitsModel CodePairModel BinaryProofs SpecModel SpecSpec SpecCheck SpecProofs
  EntityData SectionData DrawingModel DrawingSpec DrawingProofs FileModel FileSpec PartsProofs ReturnProofs FileProofs DxbModel DxbSpec.
From Verif Require CollectModel CollectProofs.
Open Scope string_scope.
Open Scope list_scope.
Open Scope N_scope.
Set Default Goal Selector "!".

(** * Numbers *)
Definition conv (d : N) : N := f64_of_f32 (f32_of_f64 d).
Lemma f32_of_rat_bound neg n d : (0 <= n)%Z -> (0 < d)%Z -> f32_of_rat neg n d < 2 ^ 32.
Proof.
  intros Hn Hd. unfold f32_of_rat. assert (B : forall m, (Z.min m inf32 <= 2139095040)%Z) by (intros m; unfold inf32; rewrite z23; lia).
  rewrite n32. unfold sign32. destruct (n =? 0)%Z; [destruct neg; reflexivity|]. cbv zeta. set (m := Z.min _ _). assert (Hm : (m <= 2139095040)%Z) by apply B. clearbody m. rewrite n31. destruct neg; lia.
Qed.
Lemma f32_of_f64_bound d : f32_of_f64 d < 2 ^ 32.
Proof.
  unfold f32_of_f64. destruct (f64_finite d); [apply f32_of_rat_bound; [apply f64_num_nonneg|apply f64_den_pos]|]. rewrite n32. unfold sign32, inf32. rewrite n31, z23.
  destruct (f64_frac d =? 0)%Z; [destruct (f64_neg d); reflexivity|]. pose proof (f64_frac_range d) as R. rewrite z52 in R.
  assert (R2 : (0 <= f64_frac d / 2 ^ 29 < 8388608)%Z) by (change (2 ^ 29)%Z with 536870912%Z; clear - R; lia). pose proof (lor_22 _ R2) as L. destruct (f64_neg d); lia.
Qed.
Lemma written_single d r : read_f32 (write_n d ++ r) = Ok (f32_of_f64 d, r).
Proof. unfold read_f32, write_n. apply read_le_bytes. apply f32_of_f64_bound. Qed.
Lemma i16_there z r : (-32768 <= z < 32768)%Z -> read_i16 (write_w z ++ r) = Ok (z, r).
Proof.
  intros H. unfold read_i16, write_w, write_i16. rewrite read_le_bytes; [|unfold unsigned; change (256 ^ N.of_nat 2) with 65536; lia].
  cbn [bind]. unfold signed, unsigned, wrap_signed. cbv zeta. do 2 f_equal. change (65536 / 2)%Z with 32768%Z. destruct (Z.ltb_spec (Z.of_N (Z.to_N (z mod 65536)) mod 65536) 32768); lia.
Qed.
Lemma mul_one z : (Z.abs z < 2 ^ 53)%Z -> f64_mul (f64_of_Z z) one64 = f64_of_Z z.
Proof.
  intros H. destruct (f64_of_Z_exact (z <? 0)%Z (Z.abs z) ltac:(lia)) as (B & F & N & V). fold (f64_of_Z z) in *. unfold f64_mul, F32Model.f64_is_nan. rewrite F.
  change (f64_finite one64) with true. change (f64_neg one64) with false. cbn [negb andb orb]. rewrite xorb_false_r.
  change (f64_num one64) with (4503599627370496)%Z. change (f64_den one64) with (4503599627370496)%Z.
  pose proof (f64_den_pos (f64_of_Z z)) as D. pose proof (f64_num_nonneg (f64_of_Z z)) as Nn.
  apply f64_of_rat_exact; auto; clear - D Nn; lia.
Qed.
Lemma word_there x z r : x_scale x = one64 -> (-32768 <= z < 32768)%Z -> x_rest x = write_w z ++ r -> read_w x = Ok (z, moved r 2 x).
Proof.
  intros S H R. unfold read_w. rewrite R, i16_there by exact H. cbn [bind]. rewrite S, mul_one by lia. rewrite f64_to_int_of_Z by lia. reflexivity.
Qed.

(** * Fields *)
(** The state stays as it is but for the bytes, the offset and the last points. *)
Record same_mode (x x' : dxb) : Prop := mk_same { sm_int : x_int x' = x_int x; sm_layer : x_layer x' = x_layer x; sm_scale : x_scale x' = x_scale x; sm_color : x_color x' = x_color x }.
Lemma same_trans x y z : same_mode x y -> same_mode y z -> same_mode x z.
Proof. intros [] []. constructor; congruence. Qed.
Lemma same_refl x : same_mode x x.
Proof. constructor; reflexivity. Qed.
Definition slots (fs : list field) : list string := flat_map (fun f => match f with FN s | FA s => [s] | F0 _ => [] end) fs.
Fixpoint filled (fs : list field) (src st : store) : store :=
  match fs with
  | [] => st
  | (FN s | FA s) :: r => filled r src (upd st s (FF64 (conv (f64_of (src s)))))
  | F0 s :: r => filled r src (upd st s (FF64 0))
  end.
Lemma fields_there fs src r : forall st x, x_int x = false -> x_rest x = write_slots src (slots fs) ++ r ->
  exists x', read_fields fs st x = Ok (filled fs src st, x') /\ x_rest x' = r /\ same_mode x x'.
Proof.
  induction fs as [|[s|s|s] fs IH]; intros st x I R; cbn [slots flat_map app write_slots] in R.
  - exists x. split; [reflexivity|]. split; [exact R|apply same_refl].
  - fold (slots fs) (write_slots src (slots fs)) in R. rewrite <- app_assoc in R. cbn [read_fields filled]. unfold read_n. rewrite I, R, written_single. cbn [bind].
    destruct (IH (upd st s (FF64 (conv (f64_of (src s))))) (moved (write_slots src (slots fs) ++ r) 4 x) I eq_refl) as (x' & E & R' & [? ? ? ?]).
    exists x'. split; [exact E|]. split; [exact R'|constructor; assumption].
  - fold (slots fs) (write_slots src (slots fs)) in R. rewrite <- app_assoc in R. cbn [read_fields filled]. unfold read_a. rewrite I, R, written_single. cbn [bind].
    destruct (IH (upd st s (FF64 (conv (f64_of (src s))))) (moved (write_slots src (slots fs) ++ r) 4 x) I eq_refl) as (x' & E & R' & [? ? ? ?]).
    exists x'. split; [exact E|]. split; [exact R'|constructor; assumption].
  - cbn [read_fields filled]. apply (IH _ x I R).
Qed.
(** Fields with different names do not disturb each other. *)
Definition names (fs : list field) : list string := map (fun f => match f with FN s | FA s | F0 s => s end) fs.
Lemma filled_other fs src s : ~ In s (names fs) -> forall st, filled fs src st s = st s.
Proof.
  induction fs as [|f fs IH]; intros H st; [reflexivity|]. cbn [names map] in H. assert (H2 : ~ In s (names fs)) by (intros X; apply H; right; exact X).
  destruct f as [n|n|n]; cbn [filled]; rewrite IH by exact H2; unfold upd; (destruct (String.eqb_spec s n) as [->|]; [exfalso; apply H; left; reflexivity|reflexivity]).
Qed.
Lemma filled_number fs src s : NoDup (names fs) -> In s (slots fs) -> forall st, filled fs src st s = FF64 (conv (f64_of (src s))).
Proof.
  induction fs as [|f fs IH]; intros D H st; [destruct H|]. cbn [names map] in D. inversion_clear D as [|? ? D1 D2]. fold (names fs) in *.
  destruct f as [n|n|n]; cbn [slots flat_map app] in H; cbn [filled].
  - destruct H as [<-|H]; [|apply IH; assumption]. rewrite filled_other by exact D1. unfold upd. rewrite String.eqb_refl. reflexivity.
  - destruct H as [<-|H]; [|apply IH; assumption]. rewrite filled_other by exact D1. unfold upd. rewrite String.eqb_refl. reflexivity.
  - apply IH; assumption.
Qed.
Definition zeros (fs : list field) : list string := flat_map (fun f => match f with F0 s => [s] | _ => [] end) fs.
Lemma filled_zero fs src s : NoDup (names fs) -> In s (zeros fs) -> forall st, filled fs src st s = FF64 0.
Proof.
  induction fs as [|f fs IH]; intros D H st; [destruct H|]. cbn [names map] in D. inversion_clear D as [|? ? D1 D2]. fold (names fs) in *.
  destruct f as [n|n|n]; cbn [zeros flat_map app] in H; cbn [filled]; [apply IH; assumption..|].
  destruct H as [<-|H]; [|apply IH; assumption]. rewrite filled_other by exact D1. unfold upd. rewrite String.eqb_refl. reflexivity.
Qed.

(** * One entity *)
Definition plain_types : list (string * (itype * list field)) :=
  [("Arc", (ent_arc, arc_fields)); ("Circle", (ent_circle, circle_fields)); ("Face3D", (ent_face3d, face_fields)); ("Line", (ent_line, line_fields));
   ("ModelPoint", (ent_model_point, point_fields)); ("Seqend", (ent_seqend, [])); ("Solid", (ent_solid, quad_fields)); ("Trace", (ent_trace, quad_fields));
   ("Vertex", (ent_vertex, vertex_fields))].
Definition wrapped (layer : rstring) (color : Z) (t : itype) (st : store) : raw := (t, upd (upd st "common.color" (FInt color)) "common.layer" (FStr layer)).
Definition as_read (layer : rstring) (color : Z) (e : entity) : list raw :=
  match en_specific e with
  | EPolyline _ vs =>
      wrapped layer color ent_polyline (upd (default_of (it_spec ent_polyline)) "flags" (FInt (if closed e then 1 else 0)))
      :: map (fun '(v, _) => wrapped layer color ent_vertex (filled vertex_fields (of_fields v) (default_of (it_spec ent_vertex)))) vs
      ++ [wrapped layer color ent_seqend (default_of (it_spec ent_seqend))]
  | s => match assoc_slot (entity_type s) plain_types with
         | Some (t, fs) => [wrapped layer color t (filled fs (entity_store e) (default_of (it_spec t)))]
         | None => []
         end
  end.
Lemma plain_there t fs src x r : x_int x = false -> x_rest x = write_slots src (slots fs) ++ r ->
  exists x', read_plain t fs x = Ok (wrapped (x_layer x) (x_color x) t (filled fs src (default_of (it_spec t))), x') /\ x_rest x' = r /\ same_mode x x'.
Proof.
  intros I R. destruct (fields_there fs src r (default_of (it_spec t)) x I R) as (x' & E & R' & S). exists x'. unfold read_plain. rewrite E. cbn [bind].
  split; [|split; assumption]. unfold wrap_common, wrapped. destruct S as [_ -> _ ->]. reflexivity.
Qed.
(** One turn of the loop for an entity of the format. *)
Definition turn (x x' : dxb) (es : list raw) : Prop :=
  forall f base acc, (length (x_rest x) < f)%nat -> exists f', (length (x_rest x') < f')%nat /\ read_items f base acc x = read_items f' base (acc ++ es) x'.
Lemma turn_trans x y z l1 l2 : turn x y l1 -> turn y z l2 -> turn x z (l1 ++ l2).
Proof.
  intros A B f base acc Hf. destruct (A f base acc Hf) as (f1 & H1 & ->). destruct (B f1 base (acc ++ l1) H1) as (f2 & H2 & ->). exists f2. split; [exact H2|]. rewrite app_assoc. reflexivity.
Qed.
Lemma turn_refl x : turn x x [].
Proof. intros f base acc H. exists f. rewrite app_nil_r. auto. Qed.
Lemma length_slots src l : (length (write_slots src l) = 4 * length l)%nat.
Proof. induction l as [|s l IH]; [reflexivity|]. cbn [write_slots flat_map]. rewrite app_length. fold (write_slots src l). rewrite IH. cbn. lia. Qed.
Lemma plain_turn n i l t fs src x r : assoc_slot n plain_entities = Some (i, l) -> assoc_slot n plain_types = Some (t, fs) -> x_int x = false ->
  x_rest x = write_item_type i ++ write_slots src l ++ r ->
  exists x', turn x x' [wrapped (x_layer x) (x_color x) t (filled fs src (default_of (it_spec t)))] /\ x_rest x' = r /\ same_mode x x'.
Proof.
  intros A B I R. unfold write_item_type in R. cbn [app] in R. set (x1 := moved (write_slots src l ++ r) 1 x).
  assert (M : same_mode x x1) by (constructor; reflexivity).
  assert (L : l = slots fs).
  { revert A B. unfold plain_entities, plain_types. cbn [assoc_slot]. repeat (destruct (String.eqb _ _); [intros X Y; injection X as <- <-; injection Y as <- <-; reflexivity|]). discriminate. }
  assert (R1 : x_rest x1 = write_slots src (slots fs) ++ r) by (rewrite <- L; reflexivity).
  destruct (plain_there t fs src x1 r I R1) as (x2 & E & R2 & S2).
  assert (G : forall x3, x_rest x3 = r -> same_mode x1 x3 ->
    (forall f base acc, read_items (S f) base acc x = read_items f base (acc ++ [wrapped (x_layer x) (x_color x) t (filled fs src (default_of (it_spec t)))]) x3) ->
    exists x', turn x x' [wrapped (x_layer x) (x_color x) t (filled fs src (default_of (it_spec t)))] /\ x_rest x' = r /\ same_mode x x').
  { intros x3 R3 S3 H. exists x3. split; [|split; [exact R3|exact (same_trans _ _ _ M S3)]]. intros [|f] base acc Hf; [lia|]. exists f. split; [|apply H].
    rewrite R in Hf. rewrite R3. cbn [length] in Hf. rewrite app_length in Hf. lia. }
  assert (IT : exists c, x_rest x = c :: write_slots src l ++ r /\ item_of_u8 c = Some i) by (exists (u8_of_item i); split; [exact R|destruct i; reflexivity]).
  destruct IT as (c & Rc & Ic). clear R.
  revert A B E G. unfold plain_entities, plain_types. cbn [assoc_slot].
  repeat (destruct (String.eqb _ _); [intros X Y; injection X as <- <-; injection Y as <- <-; intros E G|]); [..|discriminate].
  all: try (apply (G x2 R2 S2); intros f base acc; cbn [read_items]; rewrite Rc, Ic; cbv zeta; fold x1; rewrite E; reflexivity).
  - apply (G (set_line (end_of_line (snd (wrapped (x_layer x1) (x_color x1) ent_line (filled line_fields src (default_of (it_spec ent_line)))))) x2));
      [exact R2|destruct S2; constructor; assumption|]. intros f base acc. cbn [read_items]. rewrite Rc, Ic. cbv zeta. fold x1. unfold read_line_item. rewrite E. reflexivity.
  - apply (G x1 R1 (same_refl x1)). intros f base acc. cbn [read_items]. rewrite Rc, Ic. reflexivity.
  - set (e := wrapped (x_layer x1) (x_color x1) ent_trace (filled quad_fields src (default_of (it_spec ent_trace)))) in *.
    apply (G (set_trace (corner (snd e) "third_corner") (corner (snd e) "fourth_corner") x2)); [exact R2|destruct S2; constructor; assumption|].
    intros f base acc. cbn [read_items]. rewrite Rc, Ic. cbv zeta. fold x1. unfold read_trace. rewrite E. reflexivity.
Qed.

Lemma vertices_turn vs r : forall x, x_int x = false -> x_rest x = flat_map (fun v => write_vertex (of_fields v)) vs ++ r ->
  exists x', turn x x' (map (fun v => wrapped (x_layer x) (x_color x) ent_vertex (filled vertex_fields (of_fields v) (default_of (it_spec ent_vertex)))) vs) /\ x_rest x' = r /\ same_mode x x'.
Proof.
  induction vs as [|v vs IH]; intros x I R.
  - exists x. split; [apply turn_refl|]. split; [exact R|apply same_refl].
  - cbn [flat_map] in R. unfold write_vertex at 1 in R. rewrite <- !app_assoc in R.
    destruct (plain_turn "Vertex" IVertex (xy "location") ent_vertex vertex_fields (of_fields v) x _ eq_refl eq_refl I R) as (x1 & T1 & R1 & S1).
    destruct (IH x1) as (x2 & T2 & R2 & S2); [rewrite (sm_int _ _ S1); exact I|exact R1|]. rewrite (sm_layer _ _ S1), (sm_color _ _ S1) in T2.
    exists x2. split; [exact (turn_trans _ _ _ _ _ T1 T2)|]. split; [exact R2|exact (same_trans _ _ _ S1 S2)].
Qed.
Lemma odd_land z : Z.odd z = negb (Z.land z 1 =? 0)%Z.
Proof. rewrite <- Z.bit0_odd. change 1%Z with (Z.ones 1). rewrite Z.land_ones by lia. rewrite Z.bit0_odd, Zodd_mod. change (2 ^ 1)%Z with 2%Z. unfold Zeq_bool. pose proof (Z.mod_pos_bound z 2). destruct (Z.eqb_spec (z mod 2) 0) as [->|]; [reflexivity|]. replace (z mod 2)%Z with 1%Z by lia. reflexivity. Qed.
Lemma closed_flag e : read_flag is_closed_flag (as_int (entity_store e "flags")) = closed e.
Proof. unfold read_flag, is_closed_flag, closed, as_int. cbn [fl_get]. destruct (entity_store e "flags"); try reflexivity. symmetry. apply odd_land. Qed.
Lemma entity_turn e x r : x_int x = false -> x_scale x = one64 -> x_rest x = write_entity e ++ r ->
  exists x', turn x x' (as_read (x_layer x) (x_color x) e) /\ x_rest x' = r /\ same_mode x x'.
Proof.
  intros I Sc R. unfold write_entity in R. unfold as_read.
  assert (P : forall s, (forall q l, s <> EPolyline q l) ->
    x_rest x = match assoc_slot (entity_type s) plain_entities with Some (i, l) => write_item_type i ++ write_slots (entity_store e) l | None => [] end ++ r ->
    exists x', turn x x' match assoc_slot (entity_type s) plain_types with Some (t, fs) => [wrapped (x_layer x) (x_color x) t (filled fs (entity_store e) (default_of (it_spec t)))] | None => [] end
      /\ x_rest x' = r /\ same_mode x x').
  { intros s _ Rs. destruct (assoc_slot (entity_type s) plain_entities) as [[i l]|] eqn:A.
    - assert (B : exists t fs, assoc_slot (entity_type s) plain_types = Some (t, fs)).
      { revert A. unfold plain_entities, plain_types. cbn [assoc_slot]. repeat (destruct (String.eqb _ _); [intros _; eexists; eexists; reflexivity|]). discriminate. }
      destruct B as (t & fs & B). rewrite B. rewrite <- app_assoc in Rs. exact (plain_turn _ _ _ _ _ _ _ _ A B I Rs).
    - assert (B : assoc_slot (entity_type s) plain_types = None).
      { revert A. unfold plain_entities, plain_types. cbn [assoc_slot]. repeat (destruct (String.eqb _ _); [discriminate|]). reflexivity. }
      rewrite B. exists x. split; [apply turn_refl|]. split; [exact Rs|apply same_refl]. }
  destruct (en_specific e) as [q l|q vs|s|t s|t s|t]; try (apply P; [intros ? ? X; discriminate X|exact R]).
  clear P. rewrite closed_flag in R. unfold write_item_type in R. rewrite <- !app_assoc in R. cbn [app] in R.
  set (w := if closed e then 1%Z else 0%Z). set (tail := _ ++ _ ++ r) in R.
  assert (Hw : (-32768 <= w < 32768)%Z) by (unfold w; destruct (closed e); lia).
  set (x1 := moved (write_w w ++ tail) 1 x). pose proof (word_there x1 w tail Sc Hw eq_refl) as W. set (x2 := moved tail 2 x1) in *.
  assert (T1 : turn x x2 [wrapped (x_layer x) (x_color x) ent_polyline (upd (default_of (it_spec ent_polyline)) "flags" (FInt w))]).
  { intros [|f] base acc Hf; [lia|]. exists f. split; [rewrite R in Hf; cbn [length] in Hf; rewrite app_length in Hf; change (x_rest x2) with tail; lia|].
    cbn [read_items]. rewrite R. change (item_of_u8 (u8_of_item IPolyline)) with (Some IPolyline). cbv zeta. fold w. fold x1. unfold read_polyline. rewrite W. cbn [bind push].
    unfold wrap_common, wrapped, w. destruct (closed e); reflexivity. }
  assert (R2 : x_rest x2 = flat_map (fun v => write_vertex (of_fields v)) (map fst vs) ++ write_seqend ++ r).
  { change (x_rest x2) with tail. unfold tail. f_equal. clear. induction vs as [|[v h] vs IH]; [reflexivity|]. cbn [flat_map map fst]. f_equal. exact IH. }
  destruct (vertices_turn (map fst vs) (write_seqend ++ r) x2 I R2) as (x3 & T3 & R3 & S3).
  assert (I3 : x_int x3 = false) by (rewrite (sm_int _ _ S3); exact I).
  destruct (plain_turn "Seqend" ISeqend [] ent_seqend [] (entity_store e) x3 r eq_refl eq_refl I3 R3) as (x4 & T4 & R4 & S4).
  exists x4. split; [|split; [exact R4|]].
  - rewrite (sm_layer _ _ S3), (sm_color _ _ S3) in T4. pose proof (turn_trans _ _ _ _ _ T1 (turn_trans _ _ _ _ _ T3 T4)) as T. rewrite map_map in T.
    cbn [app] in T. erewrite map_ext; [exact T|]. intros [v h]. reflexivity.
  - apply (same_trans x x2); [constructor; reflexivity|]. exact (same_trans _ _ _ S3 S4).
Qed.

(** * All entities *)
Lemma string_there s r : dxb_layer s -> read_string_binary (write_zstring s ++ r) = Ok (s, r).
Proof.
  unfold write_zstring, write_chars. intros H. induction H as [|c s Hc _ IH]; [reflexivity|]. cbn [map app read_string_binary]. replace (c mod 256) with c by lia. replace (c =? 0) with false by lia.
  rewrite IH. reflexivity.
Qed.
Lemma color_turn c x r : x_scale x = one64 -> (-32768 <= c < 32768)%Z -> x_rest x = write_new_color c ++ r ->
  exists x', turn x x' [] /\ x_rest x' = r /\ x_int x' = x_int x /\ x_layer x' = x_layer x /\ x_scale x' = one64 /\ x_color x' = c.
Proof.
  intros Sc Hc R. unfold write_new_color, write_item_type in R. rewrite <- app_assoc in R. cbn [app] in R.
  pose proof (word_there (moved (write_w c ++ r) 1 x) c r Sc Hc eq_refl) as W. set (x1 := moved (write_w c ++ r) 1 x) in *.
  exists (set_color c (moved r 2 x1)). split; [|repeat split; exact Sc]. intros [|f] base acc Hf; [lia|]. exists f.
  split; [rewrite R in Hf; cbn [length] in Hf; rewrite app_length in Hf; change (x_rest (set_color c (moved r 2 x1))) with r; lia|].
  cbn [read_items]. rewrite R. change (item_of_u8 (u8_of_item INewColor)) with (Some INewColor). cbv zeta. fold x1. rewrite W. cbn [bind]. rewrite app_nil_r.
  replace (wrap_signed 65536 c) with c; [reflexivity|]. symmetry. apply as_i16_id. unfold is_i16. lia.
Qed.
Lemma layer_turn s x r : dxb_layer s -> x_rest x = write_item_type INewLayer ++ write_zstring s ++ r ->
  exists x', turn x x' [] /\ x_rest x' = r /\ x_int x' = x_int x /\ x_layer x' = s /\ x_scale x' = x_scale x /\ x_color x' = x_color x.
Proof.
  intros Hs R. unfold write_item_type in R. cbn [app] in R. set (x1 := moved (write_zstring s ++ r) 1 x).
  exists (set_layer s (moved r (N.of_nat (length s) + 1) x1)). split; [|repeat split]. intros [|f] base acc Hf; [lia|]. exists f.
  split; [rewrite R in Hf; cbn [length] in Hf; rewrite app_length in Hf; cbn [set_layer moved x_rest]; lia|].
  cbn [read_items]. rewrite R. change (item_of_u8 (u8_of_item INewLayer)) with (Some INewLayer). cbv zeta. fold x1. unfold read_string. change (x_rest x1) with (write_zstring s ++ r).
  rewrite string_there by exact Hs. cbn [bind]. rewrite app_nil_r. reflexivity.
Qed.
Definition colored (e : entity) : Prop := dxb_layer (en_layer e) /\ (-32768 <= color_in e < 32768)%Z.
Lemma runs_turn es r : Forall colored es -> forall layer last x, x_int x = false -> x_scale x = one64 -> x_color x = last ->
  match layer with Some l => x_layer x = l | None => True end -> x_rest x = write_runs layer last es ++ r ->
  exists x', turn x x' (flat_map (fun e => as_read (en_layer e) (color_in e) e) es) /\ x_rest x' = r.
Proof.
  intros H. induction H as [|e es [Hl Hc] _ IH]; intros layer last x I Sc C L R.
  - exists x. split; [apply turn_refl|exact R].
  - cbn [write_runs] in R. rewrite <- !app_assoc in R.
    assert (A : exists x1, turn x x1 [] /\ x_rest x1 = (if (color_in e =? last)%Z then [] else write_new_color (color_in e)) ++ write_entity e ++ write_runs (Some (en_layer e)) (color_in e) es ++ r /\
      x_int x1 = false /\ x_layer x1 = en_layer e /\ x_scale x1 = one64 /\ x_color x1 = last).
    { assert (New : x_rest x = (write_item_type INewLayer ++ write_zstring (en_layer e)) ++ (if (color_in e =? last)%Z then [] else write_new_color (color_in e)) ++ write_entity e ++ write_runs (Some (en_layer e)) (color_in e) es ++ r ->
        exists x1, turn x x1 [] /\ x_rest x1 = (if (color_in e =? last)%Z then [] else write_new_color (color_in e)) ++ write_entity e ++ write_runs (Some (en_layer e)) (color_in e) es ++ r /\
        x_int x1 = false /\ x_layer x1 = en_layer e /\ x_scale x1 = one64 /\ x_color x1 = last).
      { intros R'. rewrite <- app_assoc in R'. destruct (layer_turn _ _ _ Hl R') as (x1 & T & R1 & I1 & L1 & S1 & C1). exists x1. split; [exact T|repeat split; congruence]. }
      destruct layer as [l|]; [|exact (New R)]. destruct (seqb l (en_layer e)) eqn:E; [|exact (New R)]. apply seqb_eq in E. exists x. split; [apply turn_refl|]. repeat split; try assumption. congruence. }
    destruct A as (x1 & T1 & R1 & I1 & L1 & S1 & C1).
    assert (B : exists x2, turn x1 x2 [] /\ x_rest x2 = write_entity e ++ write_runs (Some (en_layer e)) (color_in e) es ++ r /\
      x_int x2 = false /\ x_layer x2 = en_layer e /\ x_scale x2 = one64 /\ x_color x2 = color_in e).
    { destruct (Z.eqb_spec (color_in e) last) as [E|E].
      - exists x1. split; [apply turn_refl|]. repeat split; try assumption. congruence.
      - destruct (color_turn _ _ _ S1 Hc R1) as (x2 & T & R2 & I2 & L2 & S2 & C2). exists x2. split; [exact T|repeat split; congruence]. }
    destruct B as (x2 & T2 & R2 & I2 & L2 & S2 & C2). destruct (entity_turn e x2 _ I2 S2 R2) as (x3 & T3 & R3 & [M1 M2 M3 M4]).
    rewrite L2, C2 in T3. destruct (IH (Some (en_layer e)) (color_in e) x3) as (x4 & T4 & R4); [congruence..|]. exists x4. split; [|exact R4].
    exact (turn_trans _ _ _ _ _ T1 (turn_trans _ _ _ _ _ T2 (turn_trans _ _ _ _ _ T3 T4))).
Qed.
(** What the reader has found at the end of a file without blocks. *)
Lemma items_there es x : Forall colored es -> x_int x = true -> x_scale x = one64 ->
  x_rest x = (write_item_type INumberMode ++ write_w 1) ++ write_new_color 0 ++ write_runs None 0 es ++ [0] ->
  forall f, (length (x_rest x) < f)%nat -> read_items f None [] x = Ok (None, flat_map (fun e => as_read (en_layer e) (color_in e) e) es).
Proof.
  intros H I Sc R f Hf. rewrite <- app_assoc in R. unfold write_item_type in R. cbn [app] in R. set (tail := write_new_color 0 ++ _) in R.
  set (x1 := moved (write_w 1 ++ tail) 1 x). pose proof (word_there x1 1 tail Sc ltac:(lia) eq_refl) as W. set (x2 := set_int false (moved tail 2 x1)).
  assert (T2 : turn x x2 []).
  { intros [|g] base acc Hg; [lia|]. exists g. split; [rewrite R in Hg; cbn [length] in Hg; rewrite app_length in Hg; change (x_rest x2) with tail; lia|].
    cbn [read_items]. rewrite R. change (item_of_u8 (u8_of_item INumberMode)) with (Some INumberMode). cbv zeta. fold x1. rewrite W. cbn [bind]. rewrite app_nil_r. reflexivity. }
  destruct (color_turn 0 x2 (write_runs None 0 es ++ [0]) Sc ltac:(lia) eq_refl) as (x3 & T3 & R3 & I3 & L3 & S3 & C3).
  destruct (runs_turn es [0] H None 0%Z x3) as (x4 & T4 & R4); [exact I3|exact S3|exact C3|exact Logic.I|exact R3|].
  destruct (turn_trans _ _ _ _ _ T2 (turn_trans _ _ _ _ _ T3 T4) f None [] Hf) as (f' & Hf' & ->). destruct f' as [|f']; [lia|]. cbn [read_items]. rewrite R4. reflexivity.
Qed.

(** * Grouping *)
Definition built (layer : rstring) (color : Z) (e : entity) : list entity :=
  match en_specific e with
  | EPolyline _ vs =>
      [entity_of (wrapped layer color ent_polyline (upd (default_of (it_spec ent_polyline)) "flags" (FInt (if closed e then 1 else 0))))
        (map (fun '(v, _) => (child_of (wrapped layer color ent_vertex (filled vertex_fields (of_fields v) (default_of (it_spec ent_vertex)))) default_mtext, auto_replace)) vs) default_mtext]
  | s => match assoc_slot (entity_type s) plain_types with
         | Some (t, fs) => [entity_of (wrapped layer color t (filled fs (entity_store e) (default_of (it_spec t)))) [] default_mtext]
         | None => []
         end
  end.
Lemma collect_one (e : flat_entity) r : match e with CollectModel.EVertex _ _ | CollectModel.ESeqend _ | CollectModel.EOther _ _ => True | _ => False end ->
  CollectModel.collect_entities (e :: r) = e :: CollectModel.collect_entities r.
Proof. intros H. rewrite CollectProofs.collect_step. destruct e; try contradiction; reflexivity. Qed.
Lemma kind_wrapped l c t st : kind_of (wrapped l c t st) = sp_name (it_spec t).
Proof. reflexivity. Qed.
Lemma grouped_one l c e rest : grouped (as_read l c e ++ rest) = built l c e ++ grouped rest.
Proof.
  unfold grouped. rewrite map_app. unfold as_read, built.
  assert (P : forall s, flat_map of_flat (CollectModel.collect_entities (map to_flat
      match assoc_slot (entity_type s) plain_types with Some (t, fs) => [wrapped l c t (filled fs (entity_store e) (default_of (it_spec t)))] | None => [] end ++ map to_flat rest)) =
    match assoc_slot (entity_type s) plain_types with Some (t, fs) => [entity_of (wrapped l c t (filled fs (entity_store e) (default_of (it_spec t)))) [] default_mtext] | None => [] end
    ++ flat_map of_flat (CollectModel.collect_entities (map to_flat rest))).
  { intros s. unfold plain_types. cbn [assoc_slot]. repeat (destruct (String.eqb (entity_type s) _); [cbn [map app]; rewrite collect_one by exact Logic.I; reflexivity|]). reflexivity. }
  destruct (en_specific e) as [q x|q vs|x|t x|t x|t]; try apply P. clear P.
  set (p := wrapped l c ent_polyline _). cbn [map]. change (to_flat p) with (@CollectModel.EPolyline raw unit unit (option unit) unit unit raw unit p tt []). rewrite map_app, map_map. cbn [map].
  set (g := fun v : list (string * fval) => wrapped l c ent_vertex (filled vertex_fields (of_fields v) (default_of (it_spec ent_vertex)))).
  set (sq := wrapped l c ent_seqend _). change (to_flat sq) with (@CollectModel.ESeqend raw unit unit (option unit) unit unit raw unit sq).
  assert (E : map (fun x : list (string * fval) * N => to_flat (let '(v, _) := x in g v)) vs = @map (raw * raw) flat_entity (fun '(c0, v) => CollectModel.EVertex c0 v) (map (fun x => (g (fst x), g (fst x))) vs)).
  { rewrite map_map. apply map_ext. intros [v h]. reflexivity. }
  change (map (fun x : list (string * fval) * N => to_flat (let '(v, _) := x in wrapped l c ent_vertex (filled vertex_fields (of_fields v) (default_of (it_spec ent_vertex))))) vs) with
    (map (fun x : list (string * fval) * N => to_flat (let '(v, _) := x in g v)) vs).
  rewrite E. cbn [app]. rewrite <- app_assoc. cbn [app]. rewrite CollectProofs.group_polyline by exact Logic.I. cbn [flat_map of_flat app]. f_equal. f_equal. rewrite !map_map. apply map_ext. intros [v h]. reflexivity.
Qed.
Lemma grouped_all es : grouped (flat_map (fun e => as_read (en_layer e) (color_in e) e) es) = flat_map (fun e => built (en_layer e) (color_in e) e) es.
Proof. induction es as [|e es IH]; [reflexivity|]. cbn [flat_map]. rewrite grouped_one, IH. reflexivity. Qed.

(** * What comes out *)
Fixpoint nodupb (l : list string) : bool := match l with [] => true | s :: r => negb (memb s r) && nodupb r end.
Lemma nodupb_ok l : nodupb l = true -> NoDup l.
Proof.
  induction l as [|s l IH]; [constructor|]. cbn [nodupb]. intros H. apply andb_true_iff in H as [H1 H2]. constructor; [|apply IH, H2]. intros X. apply memb_In in X. rewrite X in H1. discriminate H1.
Qed.
Lemma entity_names_differ : nodupb (map (fun t => sp_name (it_spec t)) entities) = true.
Proof. vm_compute. reflexivity. Qed.
Lemma same_entity t t' : In t entities -> In t' entities -> sp_name (it_spec t) = sp_name (it_spec t') -> t = t'.
Proof.
  pose proof (nodupb_ok _ entity_names_differ) as D. revert D. induction entities as [|a l IH]; intros D H H' E; [destruct H|]. cbn [map] in D. inversion_clear D as [|? ? D1 D2].
  destruct H as [<-|H], H' as [<-|H']; [reflexivity|..|apply IH; assumption].
  - exfalso. apply D1. rewrite E. apply (in_map (fun t => sp_name (it_spec t))), H'.
  - exfalso. apply D1. rewrite <- E. apply (in_map (fun t => sp_name (it_spec t))), H.
Qed.
Lemma assoc_of_in (l : list (string * fval)) s d : NoDup (map fst l) -> In (s, d) l -> assoc_slot s l = Some d.
Proof.
  induction l as [|[n x] l IH]; intros D H; [destruct H|]. cbn [map fst] in D. inversion_clear D as [|? ? D1 D2]. cbn [assoc_slot]. destruct H as [H|H].
  - injection H as -> ->. rewrite String.eqb_refl. reflexivity.
  - destruct (String.eqb_spec s n) as [->|_]; [|apply IH; assumption]. exfalso. apply D1. exact (in_map fst _ _ H).
Qed.
(** What all types of the format share. *)
Definition dxb_types : list itype := ent_polyline :: map (fun x => fst (snd x)) plain_types.
Definition type_ok (t : itype) : bool :=
  memb (sp_name (it_spec t)) (map (fun t => sp_name (it_spec t)) entities) && nodupb (map fst (sp_defaults (it_spec t))) &&
  forallb (fun s => memb s (map fst (sp_defaults (it_spec t)))) ["common.handle"; "common.layer"; "common.color"; "common.line_type_name"] &&
  match style_slot (sp_name (it_spec t)) with [] => true | _ => false end &&
  match default_of (it_spec t) "common.line_type_name" with FStr _ => true | _ => false end && (handle_of (default_of (it_spec t) "common.handle") =? 0).
Lemma types_ok : forallb type_ok dxb_types = true.
Proof. vm_compute. reflexivity. Qed.
Lemma dxb_types_in t : In t dxb_types -> In t entities.
Proof. intros H. cbn in H. unfold entities. cbn [In]. repeat (destruct H as [<-|H]; [tauto|]). destruct H. Qed.
Lemma made t st l c ch : In t dxb_types -> let b := entity_of (wrapped l c t st) ch default_mtext in
  type_name b = sp_name (it_spec t) /\ en_layer b = l /\ entity_store b "common.color" = FInt c /\ en_handle b = handle_of (st "common.handle") /\
  (forall s, In s (map fst (sp_defaults (it_spec t))) -> ~ In s ["common.handle"; "common.layer"; "common.color"; "common.line_type_name"] -> entity_store b s = st s) /\
  entity_store b "common.line_type_name" = FStr (str_of (st "common.line_type_name")).
Proof.
  intros Ht b. pose proof (proj1 (forallb_forall _ _) types_ok t Ht) as K. unfold type_ok in K. repeat (apply andb_true_iff in K as [K ?]). rename H1 into Hstyle, H2 into Hin.
  cbn [forallb] in Hin. repeat (apply andb_true_iff in Hin as [? Hin]). destruct (style_slot (sp_name (it_spec t))) eqn:S; [|discriminate Hstyle].
  assert (N : named_slots (kind_of (wrapped l c t st)) = own_slots) by (unfold named_slots; rewrite kind_wrapped, S; reflexivity).
  split; [unfold b, entity_of, type_name; cbn [en_specific]; apply type_of_specific|]. split; [reflexivity|].
  split. { unfold b. rewrite entity_slot by (apply memb_In; assumption). rewrite N. reflexivity. }
  split; [reflexivity|]. split.
  - intros s Hs Hn. unfold b. rewrite entity_slot by exact Hs. rewrite N. destruct (memb s own_slots) eqn:M.
    + apply memb_In in M. exfalso. apply Hn. cbn in M |- *. tauto.
    + cbn [wrapped snd]. unfold upd. destruct (String.eqb_spec s "common.layer") as [->|_]; [exfalso; apply Hn; cbn; tauto|]. destruct (String.eqb_spec s "common.color") as [->|_]; [exfalso; apply Hn; cbn; tauto|]. reflexivity.
  - unfold b. rewrite entity_slot by (apply memb_In; assumption). rewrite N. reflexivity.
Qed.
(** The slots of the types of the format. *)
Definition slots_ok (x : string * (itype * list field)) : bool :=
  let '(n, (t, fs)) := x in
  String.eqb (sp_name (it_spec t)) n && match assoc_slot n dxb_numbers with Some l => if list_eq_dec string_dec l (slots fs) then true else false | None => false end &&
  forallb (fun s => memb s (map fst (sp_defaults (it_spec t))) && negb (memb s ["common.handle"; "common.layer"; "common.color"; "common.line_type_name"])) (names fs) &&
  forallb (fun s => match assoc_slot s (sp_defaults (it_spec t)) with Some (FF64 0) => true | _ => false end) (zeros fs) &&
  nodupb (names fs) && forallb (fun s => memb s (slots fs) || memb s (zeros fs)) (names fs) && negb (String.eqb n "Polyline").
Lemma slots_checked : forallb slots_ok plain_types = true.
Proof. vm_compute. reflexivity. Qed.
Lemma assoc_in_list {A} n (l : list (string * A)) x : assoc_slot n l = Some x -> In (n, x) l.
Proof. induction l as [|[m y] l IH]; [discriminate|]. cbn [assoc_slot]. destruct (String.eqb_spec n m) as [->|_]; [intros H; injection H as ->; left; reflexivity|intros H; right; apply IH, H]. Qed.
Lemma conv_single e e' s x : entity_store e s = FF64 x -> x < 2 ^ 64 -> entity_store e' s = FF64 (conv (f64_of (entity_store e s))) -> to_single (entity_store e) (entity_store e') s.
Proof. intros H B E. exists x, (conv x). split; [exact H|]. split; [rewrite E, H; reflexivity|apply single_there_and_back, B]. Qed.
Lemma made_default t st l c ch fl : In t dxb_types -> In t entities ->
  (forall s d, In (s, d) (sp_defaults (it_spec t)) -> ~ In s fl -> st s = d) -> ~ In "common.line_type_name" fl ->
  forall t' s d, In t' entities -> sp_name (it_spec t') = sp_name (it_spec t) -> In (s, d) (sp_defaults (it_spec t')) -> ~ In s fl ->
    ~ In s ["common.handle"; "common.layer"; "common.color"] -> entity_store (entity_of (wrapped l c t st) ch default_mtext) s = d.
Proof.
  intros Ht He Hst Hl t' s d Ht' En Hd Hf Hn. rewrite (same_entity t' t Ht' He En) in *. destruct (made t st l c ch Ht) as (_ & _ & _ & _ & P & Q).
  destruct (string_dec s "common.line_type_name") as [->|Ns].
  - rewrite Q, (Hst _ _ Hd Hf). pose proof (proj1 (forallb_forall _ _) types_ok t Ht) as K. unfold type_ok in K. repeat (apply andb_true_iff in K as [K ?]).
    unfold default_of in H0. rewrite (assoc_of_in _ _ _ (nodupb_ok _ H3) Hd) in H0. destruct d; try discriminate H0. reflexivity.
  - rewrite P; [exact (Hst _ _ Hd Hf)|exact (in_map fst _ _ Hd)|]. intros X. cbn in X, Hn. destruct X as [X|[X|[X|[X|[]]]]]; auto.
Qed.
Lemma default_slot t s d : In t dxb_types -> In (s, d) (sp_defaults (it_spec t)) -> default_of (it_spec t) s = d.
Proof.
  intros Ht Hd. pose proof (proj1 (forallb_forall _ _) types_ok t Ht) as K. unfold type_ok in K. repeat (apply andb_true_iff in K as [K ?]).
  unfold default_of. rewrite (assoc_of_in _ _ _ (nodupb_ok _ H3) Hd). reflexivity.
Qed.
Lemma plain_returned e t fs l : assoc_slot (type_name e) plain_types = Some (t, fs) -> dxb_color e -> numbers_of e = Some l -> Forall (has_double (entity_store e)) l ->
  let b := entity_of (wrapped (en_layer e) (color_in e) t (filled fs (entity_store e) (default_of (it_spec t)))) [] default_mtext in returned e b /\ en_handle b = 0.
Proof.
  intros A (z & Cz & _) L D b. pose proof (assoc_in_list _ _ _ A) as I. pose proof (proj1 (forallb_forall _ _) slots_checked _ I) as K. unfold slots_ok in K. repeat (apply andb_true_iff in K as [K ?]).
  assert (Ht : In t dxb_types) by (right; exact (in_map (fun x => fst (snd x)) _ _ I)).
  apply String.eqb_eq in K. rename H into HnP, H0 into Hcover, H1 into Hnd, H2 into Hz, H3 into Hn, H4 into HL. unfold numbers_of in L. rewrite L in HL.
  destruct (list_eq_dec string_dec l (slots fs)) as [->|]; [|discriminate HL]. clear HL. apply nodupb_ok in Hnd.
  assert (Hs : forall s, In s (slots fs) -> In s (names fs)).
  { clear. induction fs as [|[n|n|n] fs IH]; intros s H; cbn [slots flat_map app names map] in *; [destruct H|destruct H as [<-|H]; [left; reflexivity|right; apply IH, H]..|right; apply IH, H]. }
  rewrite forallb_forall in Hn, Hz, Hcover.
  destruct (made t (filled fs (entity_store e) (default_of (it_spec t))) (en_layer e) (color_in e) [] Ht) as (M1 & M2 & M3 & M4 & M5 & M6). fold b in M1, M2, M3, M4, M5, M6.
  assert (Other : forall s, In s ["common.handle"; "common.layer"; "common.color"; "common.line_type_name"] -> ~ In s (names fs)).
  { intros s X Y. specialize (Hn s Y). apply andb_true_iff in Hn as [_ Hn]. apply memb_In in X. rewrite X in Hn. discriminate Hn. }
  split.
  - split; [rewrite M1; exact K|]. split; [exact M2|]. split; [rewrite M3, Cz; unfold color_in; rewrite Cz; reflexivity|]. split.
    + intros l L'. unfold numbers_of in L'. rewrite L in L'. injection L' as <-. split.
      * rewrite Forall_forall in D |- *. intros s X. destruct (D s X) as (x & E & B). apply (conv_single e b s x E B). rewrite M5.
        -- apply filled_number; assumption.
        -- specialize (Hn s (Hs s X)). apply andb_true_iff in Hn as [Hn _]. apply memb_In, Hn.
        -- intros Y. exact (Other s Y (Hs s X)).
      * intros t' s d Ht' En Hd Hf Hc _. unfold b. eapply (made_default t _ _ _ _ (slots fs)); try eassumption; [apply dxb_types_in, Ht|..|congruence].
        -- intros s' d' Hd' Hf'. destruct (memb s' (names fs)) eqn:M.
           ++ apply memb_In in M. specialize (Hcover s' M). apply orb_true_iff in Hcover as [X|X]; [apply memb_In in X; contradiction|]. apply memb_In in X. rewrite filled_zero by assumption.
              specialize (Hz s' X). pose proof (default_slot t s' d' Ht Hd') as Q. unfold default_of in Q. destruct (assoc_slot s' _) as [[| |[|]| | | | | |]|]; try discriminate Hz. exact Q.
           ++ rewrite filled_other; [apply default_slot; assumption|]. intros X. apply memb_In in X. rewrite X in M. discriminate M.
        -- intros X. exact (Other "common.line_type_name" ltac:(cbn; tauto) (Hs _ X)).
    + intros P. rewrite P in HnP. discriminate HnP.
  - rewrite M4, filled_other by (apply Other; cbn; tauto). pose proof (proj1 (forallb_forall _ _) types_ok t Ht) as Q. unfold type_ok in Q. repeat (apply andb_true_iff in Q as [Q ?]). apply N.eqb_eq. assumption.
Qed.

Lemma vertex_slots_ok : forallb (fun s => negb (memb s common_slots)) (names vertex_fields) = true.
Proof. vm_compute. reflexivity. Qed.
Lemma vertex_back v l c : has_double (of_fields v) "location.x" -> has_double (of_fields v) "location.y" ->
  vertex_returned v (child_of (wrapped l c ent_vertex (filled vertex_fields (of_fields v) (default_of (it_spec ent_vertex)))) default_mtext).
Proof.
  intros (x & Ex & Bx) (y & Ey & By). set (st := filled _ _ _).
  assert (W : forall s, ~ In s common_slots -> In s (map fst (sp_defaults (it_spec ent_vertex))) -> of_fields (child_of (wrapped l c ent_vertex st) default_mtext) s = st s).
  { intros s N I. unfold wrapped. rewrite child_slot by assumption. unfold upd.
    destruct (String.eqb_spec s "common.layer") as [->|_]; [exfalso; apply N; cbn; tauto|]. destruct (String.eqb_spec s "common.color") as [->|_]; [exfalso; apply N; cbn; tauto|]. reflexivity. }
  assert (Nd : NoDup (names vertex_fields)) by (apply nodupb_ok; reflexivity).
  assert (C : forall s, In s (names vertex_fields) -> ~ In s common_slots /\ In s (map fst (sp_defaults (it_spec ent_vertex)))).
  { intros s H. split; [|cbn in H; repeat (destruct H as [<-|H]; [cbn; tauto|]); destruct H]. pose proof (proj1 (forallb_forall _ _) vertex_slots_ok s H) as K. cbv beta in K. intros X. apply memb_In in X. rewrite X in K. discriminate K. }
  split; [|split].
  - exists x, (conv x). split; [exact Ex|]. split; [|apply single_there_and_back, Bx]. destruct (C "location.x" ltac:(cbn; tauto)). rewrite W by assumption. unfold st.
    rewrite filled_number; [rewrite Ex; reflexivity|exact Nd|cbn; tauto].
  - exists y, (conv y). split; [exact Ey|]. split; [|apply single_there_and_back, By]. destruct (C "location.y" ltac:(cbn; tauto)). rewrite W by assumption. unfold st.
    rewrite filled_number; [rewrite Ey; reflexivity|exact Nd|cbn; tauto].
  - intros s d Hd Hc Hn. rewrite W; [|exact Hc|exact (in_map fst _ _ Hd)]. pose proof (default_slot ent_vertex s d ltac:(cbn; tauto) Hd) as Q. unfold st.
    destruct (string_dec s "location.z") as [->|Nz]; [|rewrite filled_other; [exact Q|cbn in Hn |- *; intuition congruence]].
    rewrite filled_zero; [rewrite <- Q; reflexivity|exact Nd|cbn; tauto].
Qed.
Lemma polyline_returned e q vs : en_specific e = EPolyline q vs -> dxb_color e ->
  Forall (fun v => has_double (of_fields v) "location.x" /\ has_double (of_fields v) "location.y") (vertices_of e) ->
  let b := entity_of (wrapped (en_layer e) (color_in e) ent_polyline (upd (default_of (it_spec ent_polyline)) "flags" (FInt (if closed e then 1 else 0))))
    (map (fun '(v, _) => (child_of (wrapped (en_layer e) (color_in e) ent_vertex (filled vertex_fields (of_fields v) (default_of (it_spec ent_vertex)))) default_mtext, auto_replace)) vs) default_mtext in
  returned e b /\ en_handle b = 0.
Proof.
  intros E (z & Cz & _) V b. assert (Ht : In ent_polyline dxb_types) by (left; reflexivity). assert (Te : type_name e = "Polyline") by (unfold type_name; rewrite E; reflexivity).
  set (ch := map _ vs) in b. set (st := upd _ _ _) in b. destruct (made ent_polyline st (en_layer e) (color_in e) ch Ht) as (M1 & M2 & M3 & M4 & M5 & M6). fold b in M1, M2, M3, M4, M5, M6.
  split; [|exact M4].
  split; [rewrite M1, Te; reflexivity|]. split; [exact M2|]. split; [rewrite M3, Cz; unfold color_in; rewrite Cz; reflexivity|]. split.
  - intros l L. unfold numbers_of in L. rewrite Te in L. injection L as <-. split; [constructor|]. intros t' s d Ht' En Hd _ Hc Hf. rewrite Te in En. specialize (Hf Te). unfold b.
    eapply (made_default ent_polyline _ _ _ _ ["flags"]); try eassumption; [apply dxb_types_in, Ht|..].
    + intros s' d' Hd' Hf'. unfold st, upd. destruct (String.eqb_spec s' "flags") as [->|_]; [exfalso; apply Hf'; left; reflexivity|]. apply default_slot; assumption.
    + intros [X|[]]. discriminate X.
    + intros [X|[]]. congruence.
  - intros _. split.
    + unfold closed at 1. rewrite M5; [|cbn; tauto|intros [X|[X|[X|[X|[]]]]]; discriminate X]. unfold st, upd. cbn [String.eqb Ascii.eqb Bool.eqb]. destruct (closed e); reflexivity.
    + assert (Vb : vertices_of b = map fst ch) by reflexivity. rewrite Vb. unfold ch. clear - V E. unfold vertices_of in *. rewrite E in *. clear E. induction vs as [|[v h] vs IH]; [constructor|]. cbn [map fst] in *.
      inversion_clear V as [|? ? [V1 V2] V3]. constructor; [apply vertex_back; assumption|apply IH, V3].
Qed.
Lemma types_agree e : proper (en_specific e) -> (forall q l, en_specific e <> EPolyline q l) -> type_name e <> "Polyline".
Proof.
  unfold type_name. intros P N H. destruct (en_specific e) as [q l|q l|x|t x|t x|t]; cbn [entity_type proper] in *; try discriminate H; try (apply P; rewrite H; cbn; tauto). exact (N q l eq_refl).
Qed.
Lemma plain_numbers n : n <> "Polyline" -> match assoc_slot n dxb_numbers, assoc_slot n plain_types with Some _, Some _ | None, None => True | _, _ => False end.
Proof.
  intros N. assert (K : forall m, In m (map fst dxb_numbers ++ map fst plain_types) -> m <> "Polyline" -> match assoc_slot m dxb_numbers, assoc_slot m plain_types with Some _, Some _ | None, None => True | _, _ => False end).
  { intros m H. cbn in H. repeat (destruct H as [<-|H]; [intros X; try exact Logic.I; exfalso; apply X; reflexivity|]). destruct H. }
  destruct (assoc_slot n dxb_numbers) as [l|] eqn:A.
  - specialize (K n (in_or_app _ _ _ (or_introl (in_map fst _ _ (assoc_in_list _ _ _ A)))) N). rewrite A in K. exact K.
  - destruct (assoc_slot n plain_types) as [x|] eqn:B; [|exact Logic.I]. specialize (K n (in_or_app _ _ _ (or_intror (in_map fst _ _ (assoc_in_list _ _ _ B)))) N). rewrite A, B in K. exact K.
Qed.
Lemma built_returned e : dxb_storable e ->
  if in_dxb e then exists b, built (en_layer e) (color_in e) e = [b] /\ returned e b /\ en_handle b = 0 else built (en_layer e) (color_in e) e = [].
Proof.
  intros (P & L & C & D & V).
  assert (G : (forall q l, en_specific e <> EPolyline q l) -> built (en_layer e) (color_in e) e = match assoc_slot (type_name e) plain_types with
       | Some (t, fs) => [entity_of (wrapped (en_layer e) (color_in e) t (filled fs (entity_store e) (default_of (it_spec t)))) [] default_mtext] | None => [] end ->
     if in_dxb e then exists b, built (en_layer e) (color_in e) e = [b] /\ returned e b /\ en_handle b = 0 else built (en_layer e) (color_in e) e = []).
  { intros N ->. pose proof (plain_numbers _ (types_agree e P N)) as K. unfold in_dxb. change (assoc_slot (type_name e) dxb_numbers) with (numbers_of e) in K. destruct (numbers_of e) as [ns|] eqn:Nm.
    - destruct (assoc_slot (type_name e) plain_types) as [[t fs]|] eqn:A; [|destruct K]. eexists. split; [reflexivity|]. apply (plain_returned e t fs ns A C Nm). apply D. reflexivity.
    - destruct (assoc_slot (type_name e) plain_types); [destruct K|reflexivity]. }
  destruct (en_specific e) as [q l|q vs|x|t x|t x|t] eqn:E;
    try (apply G; [intros ? ?; discriminate|unfold built, type_name; rewrite E; reflexivity]).
  assert (I : in_dxb e = true) by (unfold in_dxb, numbers_of, type_name; rewrite E; reflexivity). rewrite I. unfold built. rewrite E. eexists. split; [reflexivity|]. eapply polyline_returned; eassumption.
Qed.
Lemma numbers_not_handle : forallb (fun x => negb (memb "common.handle" (snd x))) dxb_numbers = true.
Proof. reflexivity. Qed.
Lemma returned_renumbered e b b' : returned e b -> renumbered b b' -> returned e b'.
Proof.
  intros R [->|(_ & H1 & H2 & H3 & H4 & H5 & H6)]; [exact R|]. destruct R as (R1 & R2 & R3 & R4 & R5).
  assert (S : forall n, n <> "common.handle" -> entity_store b' n = entity_store b n).
  { apply entity_store_handle; try assumption. destruct (en_specific b) as [q l|q l|x|n x|n x|n]; try (rewrite H6; reflexivity); destruct H6 as [q' [l' H6]]; rewrite H6; reflexivity. }
  split; [unfold type_name in *; congruence|]. split; [congruence|]. split; [rewrite S by discriminate; exact R3|]. split.
  - intros l L. destruct (R4 l L) as [A B]. split.
    + rewrite Forall_forall in A |- *. intros s X. destruct (A s X) as (x & y & Q1 & Q2 & Q3). exists x, y. split; [exact Q1|]. split; [|exact Q3]. rewrite S; [exact Q2|]. intros ->.
      unfold numbers_of in L. apply assoc_in_list in L. pose proof (proj1 (forallb_forall _ _) numbers_not_handle _ L) as K. cbn [snd] in K. apply memb_In in X. rewrite X in K. discriminate K.
    + intros t s d Ht En Hd Hl Hc Hf. rewrite S by (intros ->; apply Hc; left; reflexivity). exact (B t s d Ht En Hd Hl Hc Hf).
  - intros P. destruct (R5 P) as [A B]. split; [unfold closed in *; rewrite S by discriminate; exact A|]. replace (vertices_of b') with (vertices_of b); [exact B|].
    unfold vertices_of. destruct (en_specific b) as [q l|q l|x|n x|n x|n]; try (rewrite H6; reflexivity); destruct H6 as [q' [l' H6]]; rewrite H6 in *; [reflexivity|]. cbn [DrawingSpec.children] in H5. symmetry. exact H5.
Qed.
Lemma add_is_put es : Forall (fun e => en_handle e = 0) es -> forall d, fold_left (fun d e => add_entity e d) es d = fold_left put_entity es d.
Proof. intros H. induction H as [|e es He _ IH]; intros d; [reflexivity|]. cbn [fold_left]. rewrite IH. f_equal. unfold put_entity. rewrite He. reflexivity. Qed.
Lemma all_built es : Forall dxb_storable es ->
  Forall2 returned (filter in_dxb es) (flat_map (fun e => built (en_layer e) (color_in e) e) es) /\ Forall (fun e => en_handle e = 0) (flat_map (fun e => built (en_layer e) (color_in e) e) es).
Proof.
  intros H. induction H as [|e es He _ [IH1 IH2]]; [split; constructor|]. cbn [filter flat_map]. pose proof (built_returned e He) as B. destruct (in_dxb e).
  - destruct B as (b & -> & Rb & Hb). cbn [app]. split; constructor; assumption.
  - rewrite B. split; assumption.
Qed.
Lemma storable_colored e : dxb_storable e -> colored e.
Proof. intros (_ & L & (z & C & B) & _). split; [exact L|]. unfold color_in. rewrite C. exact B. Qed.
(** Reading a file without blocks. *)
Lemma load_flat env d : dr_blocks d = [] -> Forall dxb_storable (dr_entities d) ->
  exists bs, save_dxb d = dxb_line ++ [13; 10] ++ bs /\ exists d', load_dxb env bs = Ok d' /\ dr_blocks d' = dr_blocks (start env) /\
    exists es, dr_entities d' = dr_entities (start env) ++ es /\ Forall2 returned (filter in_dxb (dr_entities d)) es.
Proof.
  intros Hb H. set (body := (write_item_type INumberMode ++ write_w 1) ++ write_new_color 0 ++ write_runs None 0 (dr_entities d) ++ [0]).
  exists (26 :: 0 :: body). split.
  - unfold save_dxb. rewrite Hb. unfold body. destruct (dr_entities d); reflexivity.
  - unfold load_dxb. change (26 =? 0x1A) with true. change (0 =? 0) with true. cbv iota.
    rewrite (items_there (dr_entities d)); [|exact (Forall_impl _ storable_colored H)|reflexivity|reflexivity|reflexivity|cbn [moved x_rest new_dxb]; lia].
    cbn [bind]. rewrite grouped_all. destruct (all_built _ H) as [A Z]. rewrite add_is_put by exact Z. eexists. split; [reflexivity|].
    destruct (put_entities_spec (flat_map (fun e => built (en_layer e) (color_in e) e) (dr_entities d)) (start env)) as (ys & E1 & E2 & _ & _ & E3 & _). cbv zeta in *.
    split; [exact E3|]. exists ys. split; [exact E1|]. clear - A E2. revert ys E2. induction A; intros ys E2; inversion_clear E2; constructor; eauto using returned_renumbered.
Qed.

(** * Any bytes *)
Definition real (e : dxf_error) : Prop := e <> OutOfFuel /\ e <> Panic.
Definition onward {A} (n : nat) (m : res (A * dxb)) : Prop := match m with Ok (_, x) => (length (x_rest x) <= n)%nat | Err e => real e end.
Lemma read_le_onward k : forall bs, match read_le k bs with Ok (_, r) => (length r <= length bs)%nat | Err e => real e end.
Proof.
  induction k as [|k IH]; intros bs; cbn [read_le]; [lia|]. destruct bs as [|b r]; [split; discriminate|]. specialize (IH r). destruct (read_le k r) as [[v r']|e]; cbn [bind]; [cbn [length]; lia|exact IH].
Qed.
Lemma string_onward bs : match read_string_binary bs with Ok (_, r) => (length r <= length bs)%nat | Err e => real e end.
Proof.
  induction bs as [|b r IH]; cbn [read_string_binary]; [split; discriminate|]. destruct (b =? 0); [cbn [length]; lia|]. destruct (read_string_binary r) as [[v r']|e]; cbn [bind]; [cbn [length]; lia|exact IH].
Qed.
Ltac onward_le k := match goal with |- context [x_rest ?x] => let H := fresh in pose proof (read_le_onward k (x_rest x)) as H; destruct (read_le k (x_rest x)) as [[? ?]|?]; cbn [bind]; exact H end.
Lemma n_onward x : onward (length (x_rest x)) (read_n x).
Proof. unfold read_n, read_i16, read_f32. destruct (x_int x); [onward_le 2%nat|onward_le 4%nat]. Qed.
Lemma a_onward x : onward (length (x_rest x)) (read_a x).
Proof. unfold read_a, read_i32, read_f32. destruct (x_int x); onward_le 4%nat. Qed.
Lemma u_onward x : onward (length (x_rest x)) (read_u x).
Proof. unfold read_u, read_i32, read_f32. destruct (x_int x); onward_le 4%nat. Qed.
Lemma w_onward x : onward (length (x_rest x)) (read_w x).
Proof. unfold read_w, read_i16. onward_le 2%nat. Qed.
Lemma s_onward x : onward (length (x_rest x)) (read_string x).
Proof. unfold read_string. pose proof (string_onward (x_rest x)) as H. destruct (read_string_binary (x_rest x)) as [[? ?]|?]; cbn [bind]; exact H. Qed.
Lemma f_onward x : (length (x_rest (snd (read_f x))) <= length (x_rest x))%nat.
Proof. unfold read_f, read_f64. pose proof (read_le_onward 8 (x_rest x)) as H. destruct (read_le 8 (x_rest x)) as [[? ?]|?]; cbn [snd moved x_rest]; [exact H|cbn; lia]. Qed.
Lemma onward_bind {A B} n (m : res (A * dxb)) (k : A -> dxb -> res (B * dxb)) : onward n m -> (forall a x, (length (x_rest x) <= n)%nat -> onward n (k a x)) ->
  onward n (let? (a, x) := m in k a x).
Proof. destruct m as [[a x]|e]; cbn [bind]; [intros H K; apply K; exact H|intros H _; exact H]. Qed.
Lemma onward_less {A} n n' (m : res (A * dxb)) : (n <= n')%nat -> onward n m -> onward n' m.
Proof. destruct m as [[a x]|e]; cbn; [lia|auto]. Qed.
Lemma fields_onward fs : forall st x, onward (length (x_rest x)) (read_fields fs st x).
Proof.
  induction fs as [|[s|s|s] fs IH]; intros st x; cbn [read_fields]; [cbn; lia|..|apply IH].
  - apply onward_bind; [apply n_onward|]. intros a y H. exact (onward_less _ _ _ H (IH _ _)).
  - apply onward_bind; [apply a_onward|]. intros a y H. exact (onward_less _ _ _ H (IH _ _)).
Qed.
Lemma plain_onward t fs x : onward (length (x_rest x)) (read_plain t fs x).
Proof. unfold read_plain. apply onward_bind; [apply fields_onward|]. intros a y H. exact H. Qed.
Lemma line_onward x : onward (length (x_rest x)) (read_line_item x).
Proof. unfold read_line_item. apply onward_bind; [apply plain_onward|]. intros a y H. exact H. Qed.
Lemma extension_onward fs x : onward (length (x_rest x)) (read_line_extension fs x).
Proof. unfold read_line_extension. apply onward_bind; [apply fields_onward|]. intros a y H. exact H. Qed.
Lemma polyline_onward x : onward (length (x_rest x)) (read_polyline x).
Proof. unfold read_polyline. apply onward_bind; [apply w_onward|]. intros a y H. exact H. Qed.
Lemma trace_onward x : onward (length (x_rest x)) (read_trace x).
Proof. unfold read_trace. apply onward_bind; [apply plain_onward|]. intros a y H. exact H. Qed.
Lemma trace_extension_onward x : onward (length (x_rest x)) (read_trace_extension x).
Proof. unfold read_trace_extension. cbv zeta. apply onward_bind; [apply fields_onward|]. intros a y H. exact H. Qed.
Lemma change_real f off es : match change_last f off es with Ok _ => True | Err e => real e end.
Proof. unfold change_last. destruct (rev es) as [|e r]; [split; discriminate|]. destruct (String.eqb _ _); [exact Logic.I|split; discriminate]. Qed.
Definition settled {A} (m : res A) : Prop := match m with Ok _ => True | Err e => real e end.
Lemma settled_bind {A B} n (m : res (A * dxb)) (k : A -> dxb -> res B) : onward n m -> (forall a x, (length (x_rest x) <= n)%nat -> settled (k a x)) -> settled (let? (a, x) := m in k a x).
Proof. destruct m as [[a x]|e]; cbn [bind]; [intros H K; apply K; exact H|intros H _; exact H]. Qed.
Lemma settled_change {B} f off es (k : list raw -> res B) : (forall l, settled (k l)) -> settled (let? l := change_last f off es in k l).
Proof. intros K. pose proof (change_real f off es) as H. destruct (change_last f off es); cbn [bind]; [apply K|exact H]. Qed.
Lemma items_enough fuel : forall base es x, (length (x_rest x) < fuel)%nat -> settled (read_items fuel base es x).
Proof.
  induction fuel as [|f IH]; intros base es x H; [lia|]. cbn [read_items]. destruct (x_rest x) as [|b r] eqn:R; [split; discriminate|]. destruct (item_of_u8 b) as [i|]; [|split; discriminate].
  cbv zeta. set (y := moved r 1 x). assert (Hy : (length (x_rest y) < f)%nat) by (cbn [length] in H; change (x_rest y) with r; lia). clearbody y. clear H R.
  assert (E : forall m, onward (length (x_rest y)) m -> settled (let? (es, x) := push es m in read_items f base es x)).
  { intros m Hm. unfold push. destruct m as [[e z]|e]; cbn [bind]; [apply IH; cbn in Hm; lia|exact Hm]. }
  destruct i; try (apply E; first [apply plain_onward|apply line_onward|apply extension_onward|apply polyline_onward|apply trace_onward|apply trace_extension_onward|cbn; lia]).
  - exact Logic.I.
  - pose proof (f_onward y) as F. destruct (read_f y) as [d z]. cbn [snd] in F. apply IH. change (x_rest (set_scale d z)) with (x_rest z). lia.
  - apply (settled_bind (length (x_rest y))); [apply s_onward|]. intros a z Hz. apply IH. change (x_rest (set_layer a z)) with (x_rest z). lia.
  - apply (settled_bind (length (x_rest y))); [apply n_onward|]. intros a z Hz. apply (settled_bind (length (x_rest z))); [apply n_onward|]. intros a' z' Hz'.
    destruct base, es; try (split; discriminate). apply IH. lia.
  - apply (settled_bind (length (x_rest y))); [apply u_onward|]. intros a z Hz. apply settled_change. intros l. apply IH. lia.
  - apply (settled_bind (length (x_rest y))); [apply n_onward|]. intros a z Hz. apply (settled_bind (length (x_rest z))); [apply n_onward|]. intros a' z' Hz'. apply settled_change. intros l. apply IH. lia.
  - apply (settled_bind (length (x_rest y))); [apply w_onward|]. intros a z Hz. apply IH. change (x_rest (set_int _ z)) with (x_rest z). lia.
  - apply (settled_bind (length (x_rest y))); [apply w_onward|]. intros a z Hz. apply IH. change (x_rest (set_color _ z)) with (x_rest z). lia.
Qed.
Lemma dxb_settles env bs : settled (load_dxb env bs).
Proof.
  unfold load_dxb. destruct bs as [|a r]; [split; discriminate|]. destruct (a =? 26); [|split; discriminate]. destruct r as [|b r]; [split; discriminate|]. destruct (b =? 0); [|split; discriminate].
  pose proof (items_enough (S (length r)) None [] (moved r 2 (new_dxb r))) as H. destruct (read_items _ _ _ _) as [[base es]|e]; cbn [bind]; [exact Logic.I|]. apply H. cbn; lia.
Qed.

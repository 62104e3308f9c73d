(** Lemmas for C60: drawings loaded from DXB files; what is written of a drawing whose fields have the right shapes. *)
From Verif Require Import Base CodePairModel StreamModel VersionModel SpecModel SpecSpec SpecProofs SpecCheck FileModel CustomModel DrawingModel HeaderModel HeaderData ThumbnailModel EntityData ObjectData TableData SectionData SaveModel StorableProofs StorableFileProofs StorableSpec.
From Verif Require CollectModel CollectProofs DxbModel.
Import ListNotations.
Open Scope string_scope.
Open Scope list_scope.
Open Scope Z_scope.
Set Default Goal Selector "!".

(** * DXB *)
Definition dxb_type (t : itype) (ss : list string) : bool :=
  match type_named entities (sp_name (it_spec t)) with Some _ => true | None => false end
  && forallb (fun s => slot_asks (ent_D t) s (leq SF64)) ss && slot_asks (ent_D t) "common.color" (leq SInt) && slot_asks (ent_D t) "common.layer" (leq SStr).
Definition names (fs : list DxbModel.field) : list string := map (fun f => match f with DxbModel.FN s | DxbModel.FA s | DxbModel.F0 s => s end) fs.
Lemma upd_number t s v st : slot_asks (ent_D t) s (leq SF64) = true -> fulfils (ent_D t) st -> fulfils (ent_D t) (upd st s (FF64 v)).
Proof. intros C. apply fulfils_upd. intros sh Hs. exact (leq_sound SF64 sh (FF64 v) (slot_asks_sound _ _ _ _ C Hs) eq_refl). Qed.
Lemma fields_ok t fs : forall st x st' x', forallb (fun s => slot_asks (ent_D t) s (leq SF64)) (names fs) = true -> fulfils (ent_D t) st -> DxbModel.read_fields fs st x = Ok (st', x') -> fulfils (ent_D t) st'.
Proof.
  induction fs as [|f fs IH]; intros st x st' x' C F; cbn [DxbModel.read_fields]; [intros [= <- <-]; exact F|]. cbn [names map forallb] in C. apply andb_true_iff in C as [C1 C2].
  destruct f as [s|s|s].
  - destruct (DxbModel.read_n x) as [[v x1]|]; cbn [bind]; [|discriminate]. apply IH; [exact C2|apply upd_number; assumption].
  - destruct (DxbModel.read_a x) as [[v x1]|]; cbn [bind]; [|discriminate]. apply IH; [exact C2|apply upd_number; assumption].
  - apply IH; [exact C2|apply upd_number; assumption].
Qed.
Lemma wrap_ok t st x : In t entities -> slot_asks (ent_D t) "common.color" (leq SInt) = true -> slot_asks (ent_D t) "common.layer" (leq SStr) = true -> fulfils (ent_D t) st -> raw_ok (DxbModel.wrap_common t st x).
Proof.
  intros Hin C1 C2 F. split; [exact Hin|]. cbn [DxbModel.wrap_common fst snd]. apply fulfils_upd.
  - intros sh Hs. exact (leq_sound SStr sh (FStr _) (slot_asks_sound _ _ _ _ C2 Hs) eq_refl).
  - apply fulfils_upd; [|exact F]. intros sh Hs. exact (leq_sound SInt sh (FInt _) (slot_asks_sound _ _ _ _ C1 Hs) eq_refl).
Qed.
Lemma default_ok t : In t entities -> fulfils (ent_D t) (default_of (it_spec t)).
Proof. intros H. destruct (entity_checked _ H) as (C & _). exact (checked_default _ _ C). Qed.
Lemma plain_ok n t fs x e x' : type_named entities n = Some t -> dxb_type t (names fs) = true -> DxbModel.read_plain t fs x = Ok (e, x') -> raw_ok e.
Proof.
  intros N C. pose proof (named_in _ _ N) as Hin. unfold dxb_type in C. apply andb_true_iff in C as [C C3]. apply andb_true_iff in C as [C C2]. apply andb_true_iff in C as [_ C1]. unfold DxbModel.read_plain.
  destruct (DxbModel.read_fields fs _ x) as [[st x1]|] eqn:E; cbn [bind]; [|discriminate]. intros [= <- <-]. apply wrap_ok; try assumption. exact (fields_ok _ _ _ _ _ _ C1 (default_ok _ Hin) E).
Qed.
Lemma coordinates_ok t p c st : forallb (fun s => slot_asks (ent_D t) s (leq SF64)) [p ++ ".x"; p ++ ".y"; p ++ ".z"]%string = true -> fulfils (ent_D t) st -> fulfils (ent_D t) (DxbModel.set_coordinates p c st).
Proof.
  intros C F. destruct c as [[a b] c]. cbn [forallb] in C. apply andb_true_iff in C as [C1 C]. apply andb_true_iff in C as [C2 C]. apply andb_true_iff in C as [C3 _]. unfold DxbModel.set_coordinates. do 3 (apply upd_number; [assumption|]). exact F.
Qed.
Lemma extension_ok to x e x' : forallb (fun s => slot_asks (ent_D ent_line) s (leq SF64)) (names to) = true -> DxbModel.read_line_extension to x = Ok (e, x') -> raw_ok e.
Proof.
  intros C. unfold DxbModel.read_line_extension. pose proof (named_in "Line" ent_line eq_refl) as Hin. destruct (DxbModel.read_fields to _ x) as [[st x1]|] eqn:E; cbn [bind]; [|discriminate]. intros [= <- <-].
  apply wrap_ok; [exact Hin|vm_compute; reflexivity|vm_compute; reflexivity|]. refine (fields_ok _ _ _ _ _ _ C _ E). apply coordinates_ok; [vm_compute; reflexivity|exact (default_ok _ Hin)].
Qed.
Lemma trace_extension_ok x e x' : DxbModel.read_trace_extension x = Ok (e, x') -> raw_ok e.
Proof.
  unfold DxbModel.read_trace_extension. pose proof (named_in "Trace" ent_trace eq_refl) as Hin. destruct (DxbModel.read_fields _ _ x) as [[st x1]|] eqn:E; cbn [bind]; [|discriminate]. intros [= <- <-].
  apply wrap_ok; [exact Hin|vm_compute; reflexivity|vm_compute; reflexivity|]. refine (fields_ok _ _ _ _ _ _ _ _ E); [vm_compute; reflexivity|]. apply coordinates_ok; [vm_compute; reflexivity|]. apply coordinates_ok; [vm_compute; reflexivity|exact (default_ok _ Hin)].
Qed.
Lemma line_ok x e x' : DxbModel.read_line_item x = Ok (e, x') -> raw_ok e.
Proof. unfold DxbModel.read_line_item. destruct (DxbModel.read_plain _ _ x) as [[e1 x1]|] eqn:E; cbn [bind]; [|discriminate]. intros [= <- <-]. refine (plain_ok "Line" _ _ _ _ _ eq_refl _ E). vm_compute. reflexivity. Qed.
Lemma trace_ok x e x' : DxbModel.read_trace x = Ok (e, x') -> raw_ok e.
Proof. unfold DxbModel.read_trace. destruct (DxbModel.read_plain _ _ x) as [[e1 x1]|] eqn:E; cbn [bind]; [|discriminate]. intros [= <- <-]. refine (plain_ok "Trace" _ _ _ _ _ eq_refl _ E). vm_compute. reflexivity. Qed.
Lemma polyline_ok x e x' : DxbModel.read_polyline x = Ok (e, x') -> raw_ok e.
Proof.
  unfold DxbModel.read_polyline. destruct (DxbModel.read_w x) as [[w x1]|]; cbn [bind]; [|discriminate]. intros [= <- <-]. pose proof (named_in "Polyline" ent_polyline eq_refl) as Hin.
  apply wrap_ok; [exact Hin|vm_compute; reflexivity|vm_compute; reflexivity|]. assert (C : slot_asks (ent_D ent_polyline) "flags" (leq SInt) = true) by (vm_compute; reflexivity).
  apply fulfils_upd; [|exact (default_ok _ Hin)]. intros sh Hs. exact (leq_sound SInt sh (FInt _) (slot_asks_sound _ _ _ _ C Hs) eq_refl).
Qed.
Lemma seqend_raw x : raw_ok (DxbModel.wrap_common ent_seqend (default_of (it_spec ent_seqend)) x).
Proof. pose proof (named_in "Seqend" ent_seqend eq_refl) as Hin. apply wrap_ok; [exact Hin|vm_compute; reflexivity|vm_compute; reflexivity|exact (default_ok _ Hin)]. Qed.
Lemma change_ok f off es es' : (forall st, fulfils (ent_D ent_vertex) st -> fulfils (ent_D ent_vertex) (f st)) -> Forall raw_ok es -> DxbModel.change_last f off es = Ok es' -> Forall raw_ok es'.
Proof.
  intros Hf H. unfold DxbModel.change_last. pose proof (Forall_rev H) as R. destruct (rev es) as [|e r]; [discriminate|]. inversion R as [|? ? He Hr]; subst. destruct (String.eqb (kind_of e) "Vertex") eqn:K; [|discriminate]. intros [= <-].
  apply Forall_app. split; [exact (Forall_rev Hr)|]. constructor; [|constructor]. apply String.eqb_eq in K. destruct He as [Hin F]. split; cbn [fst snd]; [exact Hin|]. rewrite (kind_is _ "Vertex" ent_vertex Hin eq_refl K) in F |- *. exact (Hf _ F).
Qed.
Lemma items_ok fuel : forall base es x b es', Forall raw_ok es -> DxbModel.read_items fuel base es x = Ok (b, es') -> Forall raw_ok es'.
Proof.
  induction fuel as [|f IH]; intros base es x b es' H; [discriminate|]. cbn [DxbModel.read_items]. destruct (DxbModel.x_rest x) as [|c r]; [discriminate|]. destruct (DxbModel.item_of_u8 c) as [i|]; [|discriminate].
  generalize (DxbModel.moved r 1 x). clear x. intros x.
  assert (P : forall m, (forall e x', m = Ok (e, x') -> raw_ok e) -> (let? (es, x) := DxbModel.push es m in DxbModel.read_items f base es x) = Ok (b, es') -> Forall raw_ok es').
  { intros m Hm. unfold DxbModel.push. destruct m as [[e x']|]; cbn [bind]; [|discriminate]. apply IH. apply Forall_app. split; [exact H|]. constructor; [exact (Hm _ _ eq_refl)|constructor]. }
  destruct i.
  - intros [= <- <-]. exact H.
  - apply P. intros e x'. apply line_ok.
  - apply P. intros e x'. apply (plain_ok "ModelPoint"); [reflexivity|vm_compute; reflexivity].
  - apply P. intros e x'. apply (plain_ok "Circle"); [reflexivity|vm_compute; reflexivity].
  - apply P. intros e x'. apply (plain_ok "Arc"); [reflexivity|vm_compute; reflexivity].
  - apply P. intros e x'. apply trace_ok.
  - apply P. intros e x'. apply (plain_ok "Solid"); [reflexivity|vm_compute; reflexivity].
  - apply P. intros e x' [= <- <-]. apply seqend_raw.
  - apply P. intros e x'. apply polyline_ok.
  - apply P. intros e x'. apply (plain_ok "Vertex"); [reflexivity|vm_compute; reflexivity].
  - apply P. intros e x'. apply line_ok.
  - apply P. intros e x'. apply (plain_ok "Face3D"); [reflexivity|vm_compute; reflexivity].
  - destruct (DxbModel.read_f x) as [d x1]. apply IH, H.
  - destruct (DxbModel.read_string x) as [[s x1]|]; cbn [bind]; [|discriminate]. apply IH, H.
  - apply P. intros e x'. apply extension_ok. vm_compute. reflexivity.
  - apply P. intros e x'. apply trace_extension_ok.
  - destruct (DxbModel.read_n x) as [[s x1]|]; cbn [bind]; [|discriminate]. destruct (DxbModel.read_n x1) as [[s2 x2]|]; cbn [bind]; [|discriminate]. destruct base; [discriminate|]. destruct es; [|discriminate]. apply IH, H.
  - destruct (DxbModel.read_u x) as [[s x1]|]; cbn [bind]; [|discriminate]. destruct (DxbModel.change_last _ _ es) as [es1|] eqn:E; cbn [bind]; [|discriminate]. apply IH. refine (change_ok _ _ _ _ _ H E). intros st. apply upd_number. vm_compute. reflexivity.
  - destruct (DxbModel.read_n x) as [[s x1]|]; cbn [bind]; [|discriminate]. destruct (DxbModel.read_n x1) as [[s2 x2]|]; cbn [bind]; [|discriminate]. destruct (DxbModel.change_last _ _ es) as [es1|] eqn:E; cbn [bind]; [|discriminate]. apply IH. refine (change_ok _ _ _ _ _ H E).
    intros st F. apply upd_number; [vm_compute; reflexivity|]. apply upd_number; [vm_compute; reflexivity|exact F].
  - destruct (DxbModel.read_w x) as [[s x1]|]; cbn [bind]; [|discriminate]. apply IH, H.
  - destruct (DxbModel.read_w x) as [[s x1]|]; cbn [bind]; [|discriminate]. apply IH, H.
  - apply P. intros e x'. apply extension_ok. vm_compute. reflexivity.
Qed.
Definition vertex_of (v : raw * N) : Prop := raw_ok (fst v) /\ is_kind "Vertex" (fst v) = true.
Definition flat_ok (e : DxbModel.flat_entity) : Prop :=
  match e with
  | CollectModel.EPolyline c _ vs => raw_ok c /\ is_kind "Polyline" c = true /\ Forall vertex_of vs
  | CollectModel.EVertex c v => raw_ok c /\ raw_ok v /\ is_kind "Vertex" v = true
  | CollectModel.ESeqend c | CollectModel.EOther c _ => raw_ok c
  | _ => True
  end.
Lemma to_flat_ok e : raw_ok e -> flat_ok (DxbModel.to_flat e).
Proof.
  intros H. unfold DxbModel.to_flat. destruct (String.eqb (kind_of e) "Polyline") eqn:E1; [split; [exact H|split; [exact E1|constructor]]|]. destruct (String.eqb (kind_of e) "Vertex") eqn:E2.
  - cbn [flat_ok]. split; [exact H|]. split; [exact H|exact E2].
  - destruct (String.eqb (kind_of e) "Seqend"); exact H.
Qed.
Lemma take_ok it : forall l r, Forall flat_ok it -> CollectModel.take_vertices it = (l, r) -> Forall vertex_of l /\ Forall flat_ok r.
Proof.
  induction it as [|e it IH]; intros l r H; cbn [CollectModel.take_vertices]; [intros [= <- <-]; split; constructor|]. inversion H as [|? ? He Hr]; subst. destruct e; try (intros [= <- <-]; split; [constructor|exact H]).
  destruct (CollectModel.take_vertices it) as [l' r']. intros [= <- <-]. destruct (IH _ _ Hr eq_refl) as [A B]. split; [|exact B]. constructor; [|exact A]. split; cbn [fst]; cbn [flat_ok] in He; tauto.
Qed.
Lemma swallow_ok it : Forall flat_ok it -> Forall flat_ok (CollectModel.swallow_seqend it).
Proof. intros H. destruct it as [|e it]; [exact H|]. destruct e; try exact H. inversion H; assumption. Qed.
Lemma mtext_taken it : Forall flat_ok it -> Forall flat_ok (snd (CollectModel.take_mtext it)).
Proof. intros H. destruct it as [|e it]; [exact H|]. destruct e; try exact H. inversion H; assumption. Qed.
Lemma attributes_taken it : Forall flat_ok it -> Forall flat_ok (snd (CollectModel.take_attributes it)).
Proof. induction it as [|e it IH]; intros H; [exact H|]. cbn [CollectModel.take_attributes]. inversion H; subst. destruct e; try exact H. destruct (CollectModel.take_attributes it). apply IH. assumption. Qed.
Lemma gathered fuel : forall it, Forall flat_ok it -> Forall flat_ok (CollectModel.collect_fuel fuel it).
Proof.
  induction fuel as [|f IH]; intros it H; [constructor|]. cbn [CollectModel.collect_fuel]. destruct it as [|e it]; [constructor|]. inversion H as [|? ? He Hr]; subst. destruct e as [c a m|c a m|c i has l|c p l|c v|c m|c|c o].
  - pose proof (mtext_taken _ Hr) as M. destruct (CollectModel.take_mtext it) as [x r]. constructor; [exact Logic.I|apply IH, M].
  - pose proof (mtext_taken _ Hr) as M. destruct (CollectModel.take_mtext it) as [x r]. constructor; [exact Logic.I|apply IH, M].
  - destruct has; [|constructor; [exact He|apply IH, Hr]]. pose proof (attributes_taken _ Hr) as M. destruct (CollectModel.take_attributes it) as [x r]. constructor; [exact Logic.I|apply IH, swallow_ok, M].
  - destruct (CollectModel.take_vertices it) as [x r] eqn:E. destruct (take_ok _ _ _ Hr E) as [A B]. constructor; [|apply IH, swallow_ok, B]. destruct He as (H1 & H2 & H3). split; [exact H1|]. split; [exact H2|]. apply Forall_app. split; assumption.
  - constructor; [exact He|apply IH, Hr].
  - constructor; [exact He|apply IH, Hr].
  - constructor; [exact He|apply IH, Hr].
  - constructor; [exact He|apply IH, Hr].
Qed.
Lemma of_flat_ok e : flat_ok e -> Forall ent_ok (DxbModel.of_flat e).
Proof.
  destruct e as [c a m|c a m|c i has l|c p l|c v|c m|c|c o]; cbn [flat_ok DxbModel.of_flat]; intros H; try constructor; try (apply entity_of_ok; [tauto|apply default_mtext_ok|constructor|constructor]); try constructor.
  destruct H as (H1 & H2 & H3). unfold is_kind in H2. apply String.eqb_eq in H2. apply entity_of_ok; [exact H1|apply default_mtext_ok|rewrite H2; discriminate|]. intros _. rewrite Forall_map. revert H3. apply Forall_impl. intros [v h] [R K]. exact (vert_of _ _ _ R K).
Qed.
Lemma grouped_ok es : Forall raw_ok es -> Forall ent_ok (DxbModel.grouped es).
Proof.
  intros H. unfold DxbModel.grouped, CollectModel.collect_entities. assert (F : Forall flat_ok (map DxbModel.to_flat es)) by (rewrite Forall_map; revert H; apply Forall_impl; intros e; apply to_flat_ok).
  pose proof (gathered (length (map DxbModel.to_flat es)) _ F) as G. rewrite Forall_flat_map. revert G. apply Forall_impl. intros e. apply of_flat_ok.
Qed.
Lemma block_of_ok st es : fulfils block_D st -> Forall ent_ok es -> block_ok (block_of st es).
Proof.
  intros F G. pose proof block_check as C. do 2 (apply andb_true_iff in C; destruct C as [C _]). apply andb_true_iff in C as [_ C]. split; [|exact G]. unfold block_store, block_of. cbn [bl_handle bl_layer bl_name bl_fields]. rewrite <- (app_nil_r (to_fields _ _ _)).
  refine (packed _ block_promises _ _ [] [("handle", _); ("layer", _); ("name", _)] _ [] _ C eq_refl _ (Forall2_nil _) F). constructor; [apply promise_handle|]. constructor; [apply promise_str|]. constructor; [apply promise_str|constructor].
Qed.
Lemma block_at_ok p es : Forall ent_ok es -> block_ok (DxbModel.block_at p es).
Proof.
  intros G. unfold DxbModel.block_at. apply block_of_ok; [|exact G]. assert (C : forallb (fun s => slot_asks block_D s (leq SF64)) ["base_point.x"; "base_point.y"; "base_point.z"] = true) by (vm_compute; reflexivity).
  cbn [forallb] in C. apply andb_true_iff in C as [C1 C]. apply andb_true_iff in C as [C2 C]. apply andb_true_iff in C as [C3 _]. destruct p as [a b]. unfold DxbModel.set_coordinates.
  assert (U : forall s v st, slot_asks block_D s (leq SF64) = true -> fulfils block_D st -> fulfils block_D (upd st s (FF64 v))).
  { intros s v st K. apply fulfils_upd. intros sh Hs. exact (leq_sound SF64 sh (FF64 v) (slot_asks_sound _ _ _ _ K Hs) eq_refl). }
  apply U; [exact C3|]. apply U; [exact C2|]. apply U; [exact C1|]. pose proof block_check as K. do 3 (apply andb_true_iff in K; destruct K as [K _]). exact (default_fulfils _ _ K).
Qed.
Lemma sound_add_entities l : forall d, sound d -> Forall ent_ok l -> sound (fold_left (fun d e => add_entity e d) l d).
Proof. induction l as [|e l IH]; intros d H F; [exact H|]. inversion F; subst. cbn [fold_left]. apply IH; [apply sound_add_entity|]; assumption. Qed.
Lemma sound_add_block b d : sound d -> block_ok b -> sound (add_block b d).
Proof. intros H B. unfold add_block. pose proof (sound_next _ H) as N. destruct (next_handle d) as [h d1]. apply sound_push_block; [exact N|]. exact (block_like b _ _ _ B (proj2 B)). Qed.
Lemma sound_dxb env bs d : env_ok env -> DxbModel.load_dxb env bs = Ok d -> sound d.
Proof.
  intros En. unfold DxbModel.load_dxb. destruct bs as [|a r]; [discriminate|]. destruct (a =? _)%N; [|discriminate]. destruct r as [|b r]; [discriminate|]. destruct (b =? 0)%N; [|discriminate].
  destruct (DxbModel.read_items _ _ _ _) as [[base es]|] eqn:E; cbn [bind]; [|discriminate]. pose proof (grouped_ok _ (items_ok _ _ _ _ _ _ (Forall_nil _) E)) as G. intros [= <-]. destruct base as [p|].
  - apply sound_add_block; [exact (sound_start _ En)|exact (block_at_ok _ _ G)].
  - apply sound_add_entities; [exact (sound_start _ En)|exact G].
Qed.
Lemma sound_bytes env enc bs d : env_ok env -> load_bytes env enc bs = Ok d -> sound d.
Proof.
  intros En. unfold load_bytes. destruct (after_dxb_line enc bs) as [r|]; [exact (sound_dxb _ _ _ En)|]. destruct (open_reader enc bs) as [rd|]; cbn [bind]; [|discriminate]. exact (sound_load _ _ _ _ En).
Qed.

(** * Data tables *)
Lemma map_res_ok {A B} (f : A -> res B) l : (forall x, In x l -> exists y, f x = Ok y) -> exists r, map_res f l = Ok r.
Proof. induction l as [|x l IH]; intros H; cbn [map_res]; [eauto|]. destruct (H x (or_introl eq_refl)) as [y ->]. cbn [bind]. destruct IH as [r ->]; [intros z Hz; apply H; right; exact Hz|]. cbn [bind]. eauto. Qed.
Lemma map_res_all {A B} (f : A -> res B) l : forall r, map_res f l = Ok r -> forall x, In x l -> exists y, f x = Ok y.
Proof.
  induction l as [|x l IH]; intros r H z Hz; [destruct Hz|]. cbn [map_res] in H. destruct (f x) as [y|] eqn:E; cbn [bind] in H; [|discriminate]. destruct (map_res f l) as [ys|]; cbn [bind] in H; [|discriminate].
  destruct Hz as [<-|Hz]; [eauto|exact (IH _ eq_refl z Hz)].
Qed.
Lemma index_ok {A} (l : list A) n x : CustomModel.index l n = Ok x <-> nth_error l n = Some x.
Proof. unfold CustomModel.index. destruct (nth_error l n); split; congruence. Qed.
Lemma cell_ok t row col : (exists x, cell t row col = Ok x) <-> exists cells, nth_error (dt_values t) row = Some cells /\ (col < length cells)%nat.
Proof.
  unfold cell. split.
  - intros [x H]. destruct (CustomModel.index (dt_values t) row) as [cs|] eqn:E; cbn [bind] in H; [|discriminate]. apply index_ok in E. apply index_ok in H. exists cs. split; [exact E|]. apply nth_error_Some. congruence.
  - intros (cs & E & L). apply index_ok in E. rewrite E. cbn [bind]. apply nth_error_Some in L. destruct (nth_error cs col) as [x|] eqn:X; [|congruence]. exists x. apply index_ok. exact X.
Qed.
Lemma column_writes t col : (exists ps, write_column t col = Ok ps) <->
  exists first, nth_error (dt_values t) 0 = Some first /\
  match nth_error first col with
  | None => False
  | Some None => True
  | Some (Some _) => (col < length (dt_names t))%nat /\ forall row, (row < N.to_nat (dt_rows t))%nat -> exists cells, nth_error (dt_values t) row = Some cells /\ (col < length cells)%nat
  end.
Proof.
  unfold write_column. split.
  - intros [ps H]. unfold cell in H. destruct (CustomModel.index (dt_values t) 0) as [first|] eqn:E; cbn [bind] in H; [|discriminate]. apply index_ok in E. exists first. split; [exact E|].
    destruct (CustomModel.index first col) as [x|] eqn:X; cbn [bind] in H; [|discriminate]. apply index_ok in X. rewrite X. destruct x as [y|]; [|exact Logic.I].
    destruct (CustomModel.index (dt_names t) col) as [n|] eqn:Nm; cbn [bind] in H; [|discriminate]. apply index_ok in Nm. split; [apply nth_error_Some; congruence|].
    destruct (map_res _ _) as [cs|] eqn:M; cbn [bind] in H; [|discriminate]. intros row Hr. apply cell_ok. apply (map_res_all _ _ _ M). apply in_seq. lia.
  - intros (first & E & H). unfold cell at 1. apply index_ok in E. rewrite E. cbn [bind]. destruct (nth_error first col) as [x|] eqn:X; [|destruct H]. apply index_ok in X. rewrite X. cbn [bind]. destruct x as [y|]; [|eauto]. destruct H as [L R].
    apply nth_error_Some in L. destruct (nth_error (dt_names t) col) as [n|] eqn:Nm; [|congruence]. apply index_ok in Nm. rewrite Nm. cbn [bind].
    destruct (map_res_ok (fun row => cell t row col) (seq 0 (N.to_nat (dt_rows t)))) as [cs ->]; [|cbn [bind]; eauto]. intros row Hr. apply in_seq in Hr. apply cell_ok, R. lia.
Qed.
Lemma regular_writes t : regular t <-> exists l, map_res (write_column t) (seq 0 (N.to_nat (dt_cols t))) = Ok l.
Proof.
  split.
  - intros R. apply map_res_ok. intros col Hc. apply in_seq in Hc. apply column_writes, R. lia.
  - intros [l M] col Hc. apply column_writes. apply (map_res_all _ _ _ M). apply in_seq. lia.
Qed.

(** * Writing *)
Lemma concat_all l : forall ps, concat_res l = Ok ps -> Forall (fun x => exists qs, x = Ok qs) l.
Proof. induction l as [|x l IH]; intros ps H; [constructor|]. cbn [concat_res] in H. destruct x as [a|]; cbn [bind] in H; [|discriminate]. destruct (concat_res l) as [b|]; cbn [bind] in H; [|discriminate]. constructor; [eauto|exact (IH _ eq_refl)]. Qed.
Lemma tables_write d v wh : sound d -> exists ps, write_tables d v wh = Ok ps.
Proof.
  intros H. unfold write_tables. destruct (concat_res_ok (map (write_table d v wh) table_kinds)) as [ps ->]; [|cbn [bind]; eauto]. rewrite Forall_map, Forall_forall. intros k _. unfold write_table. destruct (supported _ _); [|eauto].
  pose proof (so_tables _ H k) as T. destruct (tget k d) as [|x l]; [eauto|]. destruct (concat_res_ok (map (write_titem k v wh) (x :: l))) as [ps ->]; [|cbn [bind]; eauto]. rewrite Forall_map. revert T. apply Forall_impl. intros y. apply titem_writes.
Qed.
Lemma map_res_panic {A B} (f : A -> res B) l : (forall x e, In x l -> f x = Err e -> e = Panic) -> forall e, map_res f l = Err e -> e = Panic.
Proof.
  induction l as [|x l IH]; intros H e; cbn [map_res]; [discriminate|]. destruct (f x) as [y|e'] eqn:E; cbn [bind]; [|intros [= <-]; exact (H x _ (or_introl eq_refl) E)].
  destruct (map_res f l) as [ys|e'] eqn:M; cbn [bind]; [discriminate|]. intros [= <-]. apply (IH (fun x e Hx => H x e (or_intror Hx)) _ eq_refl).
Qed.
Lemma index_panic {A} (l : list A) n e : CustomModel.index l n = Err e -> e = Panic.
Proof. unfold CustomModel.index. destruct (nth_error l n); congruence. Qed.
Lemma cell_panic t row col e : cell t row col = Err e -> e = Panic.
Proof. unfold cell. destruct (CustomModel.index _ row) as [r|x] eqn:E; cbn [bind]; [apply index_panic|intros [= <-]; exact (index_panic _ _ _ E)]. Qed.
Lemma column_panic t col e : write_column t col = Err e -> e = Panic.
Proof.
  unfold write_column. destruct (cell t 0 col) as [x|x] eqn:E; cbn [bind]; [|intros [= <-]; exact (cell_panic _ _ _ _ E)]. destruct x as [y|]; [|discriminate].
  destruct (CustomModel.index (dt_names t) col) as [n|x] eqn:E1; cbn [bind]; [|intros [= <-]; exact (index_panic _ _ _ E1)]. destruct (map_res _ _) as [cs|x] eqn:E2; cbn [bind]; [discriminate|]. intros [= <-].
  revert E2. apply map_res_panic. intros row e' _. apply cell_panic.
Qed.
Lemma custom_table o t : ob_specific o = OCustom (CDataTable t) -> obj_ok o -> fulfils common_D (object_store o).
Proof. intros E H. unfold obj_ok in H. rewrite E in H. exact (proj1 H). Qed.
Lemma object_panic v o e : obj_ok o -> write_object v o = Err e -> e = Panic.
Proof.
  intros H W. assert (T : storable_table v o \/ exists t, ob_specific o = OCustom (CDataTable t)).
  { unfold storable_table. destruct (ob_specific o) as [| | | |cu|]; try (left; exact Logic.I). destruct cu; try (left; exact Logic.I). right. eauto. }
  destruct T as [T|[t T]]; [destruct (object_writes v o H T) as [ps P]; congruence|]. unfold write_object in W. rewrite T in W. cbn [custom_type write_custom] in W. destruct (version_leb R2007 v); [|discriminate W].
  destruct (write_ocommon_ok v _ (custom_table _ _ T H)) as [ps P]. unfold write_dtable in W. rewrite P in W. cbn [bind] in W. destruct (map_res _ _) as [l|x] eqn:M; cbn [bind] in W; [discriminate W|]. injection W as <-. revert M. apply map_res_panic. intros c e' _. apply column_panic.
Qed.
Lemma dtable_written v o t : ob_specific o = OCustom (CDataTable t) -> version_leb R2007 v = true -> (exists ps, write_object v o = Ok ps) -> regular t.
Proof.
  intros E V [ps H]. apply regular_writes. unfold write_object in H. rewrite E in H. cbn [custom_type write_custom] in H. rewrite V in H. unfold write_dtable in H.
  destruct (write_ocommon v (object_store o)); cbn [bind] in H; [|discriminate]. destruct (map_res _ _) as [l|]; cbn [bind] in H; [eauto|discriminate].
Qed.
Lemma concat_panic l : Forall (fun x => forall e, x = Err e -> e = Panic) l -> forall e : dxf_error, concat_res l = Err e -> e = Panic.
Proof.
  induction 1 as [|x l H _ IH]; intros e; cbn [concat_res]; [discriminate|]. destruct x as [a|x]; cbn [bind]; [|intros [= <-]; exact (H _ eq_refl)]. destruct (concat_res l) as [b|y]; cbn [bind]; [discriminate|]. intros [= <-]. exact (IH _ eq_refl).
Qed.
Lemma drawing_writes d : sound d ->
  ((version_leb R2007 (version_in d) = true -> tables_regular d) -> exists ps, code_pairs d = Ok ps) /\
  (~ (version_leb R2007 (version_in d) = true -> tables_regular d) -> code_pairs d = Err Panic).
Proof.
  intros H. unfold code_pairs. set (v := version_in d). set (wh := _ || _).
  destruct (header_writes _ (so_header _ H)) as [h ->]. cbn [bind]. destruct (classes_write v _ (so_classes _ H)) as [c ->]. cbn [bind]. destruct (tables_write d v wh H) as [t ->]. cbn [bind].
  destruct (blocks_write v wh _ (so_blocks _ H)) as [b ->]. cbn [bind]. destruct (entities_write v wh _ (so_entities _ H)) as [e ->]. cbn [bind]. destruct (thumb_writes v _ (so_thumb _ H)) as [i ->].
  pose proof (so_objects _ H) as O. unfold write_objects. split.
  - intros R. assert (W : exists ps, concat_res (map (write_object v) (dr_objects d)) = Ok ps).
    { apply concat_res_ok. rewrite Forall_map. rewrite Forall_forall in *. intros o Ho. apply object_writes; [exact (O o Ho)|]. unfold storable_table. destruct (ob_specific o) as [| | | |cu|] eqn:E; try exact Logic.I. destruct cu as [| |tb| | |]; try exact Logic.I. intros V. apply regular_writes. exact (R V o tb Ho E). }
    destruct W as [ps ->]. destruct (version_leb R13 v); cbn [bind]; eauto.
  - intros R. destruct (version_leb R13 v) eqn:V13.
    + assert (W : exists x, concat_res (map (write_object v) (dr_objects d)) = Err x).
      { destruct (concat_res _) as [ps|x] eqn:W; [|eauto]. contradiction R. intros V o tb Ho E. apply (dtable_written v o tb E V). apply concat_all in W. rewrite Forall_map, Forall_forall in W. exact (W o Ho). }
      destruct W as [x W]. rewrite W. cbn [bind]. f_equal. revert W. apply concat_panic. rewrite Forall_map. revert O. apply Forall_impl. intros o Ho e'. apply object_panic, Ho.
    + contradiction R. intros V. clear -V V13. destruct v; vm_compute in V13, V; congruence.
Qed.

(** * The drawings that can be made *)
Lemma norm_value k s f v sh : assoc_slot s (field_rules k) = Some f -> sh <> SDim -> shaped sh v = true -> shaped sh (f v) = true.
Proof.
  assert (P : forall d v sh, shaped sh v = true -> shaped sh (positive_field d v) = true) by (intros d w s' Hw; destruct w; try exact Hw; destruct s'; exact Hw).
  assert (I : forall d v sh, (0 < d) -> sh <> SDim -> shaped sh v = true -> shaped sh (positive_int_field d v) = true).
  { intros d w s' Hd N Hw. destruct w; try exact Hw. destruct s'; try exact Hw; [congruence|]. cbn [positive_int_field shaped] in *. destruct (z <=? 0); lia. }
  assert (S : forall d v sh, shaped sh v = true -> shaped sh (match v with FStr s => FStr (default_if_empty s d) | _ => v end) = true) by (intros d w s' Hw; destruct w; try exact Hw; destruct s'; exact Hw).
  assert (L : forall v sh, sh <> SDim -> shaped sh v = true -> shaped sh (match v with FInt z => FInt (if (z =? 0) || (z =? 256) then 7 else z) | _ => v end) = true).
  { intros w s' N Hw. destruct w; try exact Hw. destruct s'; try exact Hw; [congruence|]. cbn [shaped] in *. destruct ((z =? 0) || (z =? 256)); [reflexivity|exact Hw]. }
  intros A N Hv.
  assert (Q : Forall (fun r => forall v sh, sh <> SDim -> shaped sh v = true -> shaped sh (snd r v) = true) (field_rules k)).
  { destruct k; cbn [field_rules]; repeat constructor; cbn [snd]; intros w s' N' Hw; first [apply (S _ _ _ Hw)|apply (L _ _ N' Hw)|apply (P _ _ _ Hw)|apply I; [lia|exact N'|exact Hw]]. }
  clear P I S L. revert A. induction Q as [|[n g] l Hg _ IH]; cbn [assoc_slot]; [discriminate|]. destruct (String.eqb s n); [intros [= <-]; exact (Hg _ _ N Hv)|exact IH].
Qed.
Lemma no_dims k : forallb (fun x => match snd x with SDim => false | _ => true end) (needs (sp_cmds (it_spec (table_spec k)))) = true.
Proof. destruct k; vm_compute; reflexivity. Qed.
Lemma assoc_norm s rules (l : fields) : assoc_slot s (norm_fields rules l) = match assoc_slot s l with Some v => Some (match assoc_slot s rules with Some f => f v | None => v end) | None => None end.
Proof. unfold norm_fields. induction l as [|[n v] l IH]; cbn [map assoc_slot]; [reflexivity|]. destruct (String.eqb s n) eqn:E; [apply String.eqb_eq in E as ->; reflexivity|exact IH]. Qed.
Lemma titem_norm k x : titem_ok k x -> titem_ok k (norm_item k x).
Proof.
  intros F s sh Hin. specialize (F s sh Hin). pose proof (no_dims k) as D. rewrite forallb_forall in D. specialize (D _ Hin). cbn [snd] in D. assert (N : sh <> SDim) by (intros ->; discriminate D).
  unfold titem_store, of_fields in *. cbn [norm_item ti_handle ti_name ti_fields assoc_slot] in *. destruct (String.eqb s "handle"); [exact F|]. destruct (String.eqb s "name"); [exact F|]. rewrite assoc_norm.
  destruct (assoc_slot s (ti_fields x)) as [v|]; [|exact F]. destruct (assoc_slot s (field_rules k)) as [f|] eqn:E; [|exact F]. exact (norm_value _ _ _ _ _ E N F).
Qed.
Lemma sound_norm_table k d : sound d -> sound (norm_table k d).
Proof. intros H. unfold norm_table. apply sound_table; [exact H|]. rewrite Forall_map. pose proof (so_tables _ H k) as T. revert T. apply Forall_impl. intros x. apply titem_norm. Qed.
Lemma Forall_insert (P : titem -> Prop) x l : P x -> Forall P l -> Forall P (insert_sorted x l).
Proof. intros Hx. induction 1 as [|y l Hy Hl IH]; cbn [insert_sorted]; [repeat constructor; exact Hx|]. destruct (name_leb _ _); repeat constructor; assumption. Qed.
Lemma Forall_sort (P : titem -> Prop) l : Forall P l -> Forall P (sort_items l).
Proof. induction 1; cbn [sort_items]; [constructor|apply Forall_insert; assumption]. Qed.
Lemma sound_sort l : forall d, sound d -> sound (fold_left (fun d k => sort_table k d) l d).
Proof. induction l as [|k l IH]; intros d H; [exact H|]. cbn [fold_left]. apply IH. unfold sort_table. apply sound_table; [exact H|]. apply Forall_sort, (so_tables _ H k). Qed.
Lemma norm_entity_ok e : ent_ok e -> ent_ok (norm_entity e).
Proof. apply ent_ok_like; [reflexivity|reflexivity|apply entity_relayered; reflexivity]. Qed.
Lemma sound_normalize order d : sound d -> sound (normalize order d).
Proof.
  intros H. unfold normalize. cbv zeta. apply sound_sort. unfold ensure_ucs. do 6 apply sound_ensure_all. do 3 apply sound_norm_table. apply sound_norm_table, sound_ensure. do 2 apply sound_ensure_all.
  pose proof (sound_header _ _ H (header_norm_ok _ (so_header _ H))) as H1. revert H1. generalize (set_header (norm_header (dr_header d)) d). clear H d. intros d H.
  assert (H1 : sound (set_blocks (map norm_block (dr_blocks d)) d)).
  { apply sound_blocks; [exact H|]. rewrite Forall_map. pose proof (so_blocks _ H) as B. revert B. apply Forall_impl. intros b B. exact (block_like b _ _ _ B (proj2 B)). }
  revert H1. generalize (set_blocks (map norm_block (dr_blocks d)) d). clear H d. intros d H. apply sound_entities; [exact H|]. rewrite Forall_map. pose proof (so_entities _ H) as E. revert E. apply Forall_impl. exact norm_entity_ok.
Qed.
Lemma sound_version v d : sound d -> sound (in_version v d).
Proof.
  intros H. unfold in_version. apply sound_header; [exact H|]. pose proof (so_header _ H) as F. intros s sh Hin. specialize (F s sh Hin).
  assert (C : slot_asks header_D "version" (fun _ => false) = true) by (vm_compute; reflexivity).
  assert (N : String.eqb s "version" = false) by (destruct (String.eqb_spec s "version") as [->|]; [pose proof (slot_asks_sound _ _ _ _ C Hin) as X; discriminate X|reflexivity]).
  destruct (dr_header d) as [a1 a2 a3 a4 a5 a6 a7 a8 a9 a10]. unfold header_store, of_fields in *. cbn [hd_next hd_text_height hd_trace_width hd_text_style hd_current_layer hd_line_type hd_dim_style hd_file_name hd_ucs hd_fields] in *.
  repeat match goal with |- context [assoc_slot s ((?n, ?x) :: ?l)] => change (assoc_slot s ((n, x) :: l)) with (if String.eqb s n then Some x else assoc_slot s l) end. rewrite assoc_app. change (assoc_slot s (("version", version_val v) :: a10)) with (if String.eqb s "version" then Some (version_val v) else assoc_slot s a10). rewrite N, <- assoc_app. exact F.
Qed.
Lemma sound_clear d : sound d -> sound (clear d).
Proof.
  intros H. unfold clear. split; cbn [dr_header dr_classes dr_blocks dr_entities dr_objects dr_thumbnail thumb_ok]; try constructor; [apply header_next_ok, (so_header _ H)|]. intros k. destruct k; constructor.
Qed.
Lemma Forall_remove {A} (P : A -> Prop) l : forall i, Forall P l -> Forall P (snd (remove_item l i)).
Proof.
  intros i H. unfold remove_item. destruct (Nat.ltb i (length l)); [|exact H]. cbn [snd]. revert i. induction H as [|x l Hx Hl IH]; intros i; [destruct i; constructor|]. destruct i; cbn [vec_remove]; [exact Hl|constructor; [exact Hx|apply IH]].
Qed.
Lemma sound_made d : made d -> sound d.
Proof.
  induction 1.
  - exact (sound_start _ H).
  - exact (sound_bytes _ _ _ _ H H0).
  - apply sound_version. assumption.
  - apply sound_normalize. assumption.
  - apply sound_clear. assumption.
  - pose proof (so_tables _ IHmade2 k) as T. rewrite Forall_forall in T. specialize (T _ H1). destruct k; try apply (sound_add_plain _ _ _ IHmade1 T). apply (sound_add_layer _ _ IHmade1 T).
  - pose proof (so_blocks _ IHmade2) as T. rewrite Forall_forall in T. apply sound_add_block; auto.
  - pose proof (so_entities _ IHmade2) as T. rewrite Forall_forall in T. apply sound_add_entity; auto.
  - pose proof (so_blocks _ IHmade2) as T. rewrite Forall_forall in T. destruct (T _ H1) as [_ M]. rewrite Forall_forall in M. apply sound_add_entity; auto.
  - pose proof (so_objects _ IHmade2) as T. rewrite Forall_forall in T. apply sound_add_object; auto.
  - unfold remove_table. pose proof (Forall_remove _ _ i (so_tables _ IHmade k)) as R. destruct (remove_item (tget k d) i) as [x l]. apply sound_table; assumption.
  - unfold remove_block. pose proof (Forall_remove _ _ i (so_blocks _ IHmade)) as R. destruct (remove_item (dr_blocks d) i) as [x l]. apply sound_blocks; assumption.
  - unfold remove_entity. pose proof (Forall_remove _ _ i (so_entities _ IHmade)) as R. destruct (remove_item (dr_entities d) i) as [x l]. apply sound_entities; assumption.
  - unfold remove_object. pose proof (Forall_remove _ _ i (so_objects _ IHmade)) as R. destruct (remove_item (dr_objects d) i) as [x l]. apply sound_objects; assumption.
Qed.
Lemma version_set v d : version_in (in_version v d) = v.
Proof. unfold version_in, in_version. destruct d. destruct v; reflexivity. Qed.

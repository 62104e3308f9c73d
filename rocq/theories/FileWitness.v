(** Showing by computation that a concrete drawing meets the conditions of FileSpec.v and SaveSpec.v. *)
From Verif Require Import Base TextProofs CodePairModel CodePairSpec CodePairProofs VersionModel StreamModel ExtDataModel SpecModel SpecSpec SpecCheck SpecProofs SpecWitness EntityData EntityProps ObjectData ObjectProps
  SectionData HeaderModel HeaderSpec HeaderData HeaderProps CustomModel CustomSpec ThumbnailModel ThumbnailSpec DrawingModel DrawingSpec FileModel FileSpec SaveSpec SaveProofs.
Open Scope string_scope.
Open Scope list_scope.
Open Scope Z_scope.
Set Default Goal Selector "!".

(** * Drawings *)
Definition properb (s : especific) : bool :=
  match s with EOther n | EDimStyled n _ | ETextStyled n _ => negb (memb n ["Insert"; "InsertWithAttributes"; "Polyline"]) | _ => true end.
Definition text_typedb (m : fval) : bool :=
  forallb (fun f => memb (f_name f) common_slots ||
    (kindb (f_kind f) (of_fields (unpack_mtext m) (f_name f)) && forallb (fun c => fitsb (f_kind f) c (of_fields (unpack_mtext m) (f_name f))) (f_codes f))) (it_fields ent_mtext).
Definition soundb (v : version) (e : entity) : bool :=
  properb (en_specific e) &&
  match type_of e with
  | None => false
  | Some t =>
      supported (it_spec t) v && negb (dropped t v) && typedb t (entity_store e) &&
      match en_specific e with
      | EInsert q ((_ :: _) as l) => negb (supported (it_spec ent_mtext) v) && (q <? 18446744073709551616)%N && forallb (fun c => typedb ent_attribute (child_store (fst c) (snd c))) l
      | EPolyline q l => (q <? 18446744073709551616)%N && forallb (fun c => typedb ent_vertex (child_store (fst c) (snd c))) l
      | s => negb (has_mtext (entity_type s)) || text_typedb (text_of e)
      end
  end.
Lemma forall_b {A} (P : A -> Prop) (b : A -> bool) l : (forall x, b x = true -> P x) -> forallb b l = true -> Forall P l.
Proof. intros H F. apply Forall_forall. intros x Hx. rewrite forallb_forall in F. apply H, F, Hx. Qed.
Lemma memb_no s l : memb s l = false -> ~ In s l.
Proof. intros H X. assert (memb s l = true); [apply existsb_exists; exists s; split; [exact X|apply String.eqb_refl]|congruence]. Qed.
Lemma text_typedb_sound m : text_typedb m = true -> text_typed m.
Proof.
  unfold text_typedb. rewrite forallb_forall. intros H f Hf Hn. specialize (H f Hf).
  destruct (memb (f_name f) common_slots) eqn:E.
  - exfalso. apply Hn. apply existsb_exists in E as (x & Hx & Ex). apply String.eqb_eq in Ex. subst. exact Hx.
  - apply orb_true_iff in H as [H|H]; [discriminate H|]. apply andb_true_iff in H as [H1 H2]. split; [apply kindb_sound, H1|]. apply (forall_b _ (fun c => fitsb (f_kind f) c (of_fields (unpack_mtext m) (f_name f)))); [|exact H2].
    intros c. apply fitsb_sound.
Qed.
Lemma or_right b c : negb b || c = true -> b = true -> c = true.
Proof. destruct b; [intros H _; exact H|discriminate]. Qed.
Lemma or_text b m : negb b || text_typedb m = true -> b = true -> text_typed m.
Proof. intros H X. apply text_typedb_sound. exact (or_right _ _ H X). Qed.
Lemma soundb_sound v e : soundb v e = true -> sound v e.
Proof.
  unfold soundb, sound. intros H. apply andb_true_iff in H as [H0 H]. split.
  - clear H. destruct (en_specific e); try exact Logic.I; cbn [properb proper] in *; apply memb_no; apply negb_true_iff; exact H0.
  - destruct (type_of e) as [t|]; [|discriminate H]. exists t. apply andb_true_iff in H as [H H4]. apply andb_true_iff in H as [H H3]. apply andb_true_iff in H as [H1 H2].
    split; [reflexivity|]. split; [exact H1|]. split; [apply negb_true_iff; exact H2|]. split; [apply typedb_sound; exact H3|].
    destruct (en_specific e) as [q l|q l|s|n s|n s|n].
    + destruct l as [|c l].
      * exact (or_text _ _ H4).
      * apply andb_true_iff in H4 as [H4 H6]. apply andb_true_iff in H4 as [H4 H5]. split; [apply negb_true_iff; exact H4|]. split; [apply N.ltb_lt in H5; exact H5|].
        apply (forall_b _ (fun c => typedb ent_attribute (child_store (fst c) (snd c)))); [|exact H6]. intros x. apply typedb_sound.
    + apply andb_true_iff in H4 as [H5 H6]. split; [apply N.ltb_lt in H5; exact H5|].
      apply (forall_b _ (fun c => typedb ent_vertex (child_store (fst c) (snd c)))); [|exact H6]. intros x. apply typedb_sound.
    + exact (or_text _ _ H4).
    + exact (or_text _ _ H4).
    + exact (or_text _ _ H4).
    + exact (or_text _ _ H4).
Qed.
Definition unknownb (v : version) (e : entity) : bool := match type_of e with Some t => negb (supported (it_spec t) v) | None => false end.
Lemma unknownb_sound v e : unknownb v e = true -> unknown_to v e.
Proof. unfold unknownb, unknown_to. destruct (type_of e) as [t|]; [|discriminate]. intros H. exists t. split; [reflexivity|apply negb_true_iff; exact H]. Qed.
Lemma either_sound v e : soundb v e || unknownb v e = true -> sound v e \/ unknown_to v e.
Proof. intros H. apply orb_true_iff in H as [H|H]; [left; apply soundb_sound|right; apply unknownb_sound]; exact H. Qed.

Definition class_typedb (v : version) (c : list (string * fval)) : bool :=
  typedb (class_type v) (of_fields c) && match of_fields c "record_name" with FStr s => negb (seqb s (str "ENDSEC")) | _ => false end.
Lemma class_typedb_sound v c : class_typedb v c = true -> class_typed v c.
Proof.
  unfold class_typedb, class_typed. intros H. apply andb_true_iff in H as [H1 H2]. split; [apply typedb_sound, H1|].
  destruct (of_fields c "record_name"); try discriminate H2. eexists. split; [reflexivity|]. intros _ ->. rewrite seqb_refl in H2. discriminate H2.
Qed.

(** Only blocks without extension groups. *)
Definition block_soundb (v : version) (b : block) : bool :=
  typedb block_head (block_store b) && match as_list (block_store b "extension_data_groups") with [] => true | _ => false end &&
  forallb (fun e => soundb v e || unknownb v e) (bl_entities b).
Lemma block_soundb_sound v b : block_soundb v b = true -> block_sound v b.
Proof.
  unfold block_soundb. intros H. apply andb_true_iff in H as [H H3]. apply andb_true_iff in H as [H1 H2]. split; [apply typedb_sound, H1|]. split.
  - destruct (as_list _); [intros g []|discriminate H2].
  - exact (forall_b _ _ _ (either_sound v) H3).
Qed.

(** Objects read by the generic code, and x-records. *)
Definition common_typedb (st : store) : bool := forallb (fun f => kindb (f_kind f) (st (f_name f))) ocommon_fields.
Definition object_soundb (v : version) (o : object) : bool :=
  match ob_specific o with
  | OCustom (CXRecord x) => version_leb (snd (custom_type (CXRecord x))) v && common_typedb (object_store o) && forallb (fun p => negb (p_code p =? 0)) (xr_pairs x)
  | OCustom _ => false
  | s => match find (fun t => String.eqb (sp_name (it_spec t)) (object_type s)) objects with
         | Some t => supported (it_spec t) v && typedb t (object_store o)
         | None => false
         end
  end.
Lemma object_soundb_sound v o : object_soundb v o = true -> object_sound v o.
Proof.
  assert (G : forall n, match find (fun t => String.eqb (sp_name (it_spec t)) n) objects with
         | Some t => supported (it_spec t) v && typedb t (object_store o) | None => false end = true ->
       exists t, In t objects /\ sp_name (it_spec t) = n /\ supported (it_spec t) v = true /\ well_typed t (object_store o)).
  { intros n H. destruct (find _ objects) as [t|] eqn:F; [|discriminate H]. apply find_some in F as [F1 F2]. apply andb_true_iff in H as [H1 H2].
    exists t. split; [exact F1|]. split; [apply String.eqb_eq, F2|]. split; [exact H1|apply typedb_sound, H2]. }
  unfold object_soundb, object_sound. destruct (ob_specific o) as [c| | | | |]; try (apply G).
  destruct c; try discriminate. intros H. apply andb_true_iff in H as [H H3]. apply andb_true_iff in H as [H1 H2]. split; [exact H1|]. split.
  - intros f Hf. unfold common_typedb in H2. rewrite forallb_forall in H2. apply kindb_sound, H2, Hf.
  - apply (forall_b _ (fun p => negb (p_code p =? 0))); [|exact H3]. intros p Hp. apply negb_true_iff, Z.eqb_neq in Hp. exact Hp.
Qed.

Definition drawing_soundb (v : version) (d : drawing) : bool :=
  simple_eqb (header_store (dr_header d) "version") (version_val v) && negb (version_eqb v R11) && htypedb header_fields true (header_store (dr_header d)) &&
  forallb (class_typedb v) (dr_classes d) &&
  forallb (fun k => negb (supported (it_spec (table_spec k)) v) || forallb (fun x => typedb (table_spec k) (titem_store x)) (tget k d)) table_kinds &&
  forallb (block_soundb v) (dr_blocks d) &&
  forallb (fun e => soundb v e || unknownb v e) (dr_entities d) &&
  forallb (object_soundb v) (dr_objects d) &&
  match dr_thumbnail d with None => true | Some _ => false end.
Lemma drawing_soundb_sound v d : drawing_soundb v d = true -> drawing_sound v d.
Proof.
  unfold drawing_soundb. intros H. apply andb_true_iff in H as [H Hi]. apply andb_true_iff in H as [H Ho]. apply andb_true_iff in H as [H He]. apply andb_true_iff in H as [H Hb].
  apply andb_true_iff in H as [H Ht]. apply andb_true_iff in H as [H Hc]. apply andb_true_iff in H as [H Hh]. apply andb_true_iff in H as [Hv Hn].
  constructor.
  - apply simple_eqb_eq, Hv.
  - intros ->. discriminate Hn.
  - apply htypedb_sound, Hh.
  - exact (forall_b _ _ _ (class_typedb_sound v) Hc).
  - intros k Hk. rewrite forallb_forall in Ht.
    assert (In k table_kinds) as Ik by (destruct k; cbn; tauto). apply (or_right _ _ (Ht k Ik)) in Hk. clear Ht. unfold entry_typed.
    apply (forall_b _ (fun x => typedb (table_spec k) (titem_store x))); [|exact Hk]. intros x. apply typedb_sound.
  - exact (forall_b _ _ _ (block_soundb_sound v) Hb).
  - exact (forall_b _ _ _ (either_sound v) He).
  - intros _. apply (forall_b _ (object_soundb v)); [|exact Ho]. intros o Hx. left. apply object_soundb_sound, Hx.
  - destruct (dr_thumbnail d); [discriminate Hi|exact Logic.I].
Qed.

(** * Pairs *)
Definition decimalb (d : N) : bool :=
  is_f64 d && if f64_finite d then (0 <=? f64_scaled d) && (d =? f64_of_rat (f64_neg d) (f64_scaled d) (10 ^ 12))%N else f64_frac d =? 0.
Lemma decimalb_sound d : decimalb d = true -> decimal12 d.
Proof.
  unfold decimalb, decimal12. intros H. apply andb_true_iff in H as [H1 H2]. split; [exact H1|]. destruct (f64_finite d).
  - left. split; [reflexivity|]. apply andb_true_iff in H2 as [H2 H3]. exists (f64_neg d), (f64_scaled d). split; [apply Z.leb_le, H2|apply N.eqb_eq, H3].
  - right. split; [reflexivity|]. apply Z.eqb_eq, H2.
Qed.
Definition stringb (s : rstring) : bool := forallb is_scalar s.
Definition value_wfb (x : value) : bool :=
  match x with
  | VBool z | VShort z => is_i16 z | VInt z => is_i32 z | VLong z => is_i64 z | VDouble d => is_f64 d | VStr s => stringb s | VBin b => forallb is_byte b
  end.
Lemma value_wfb_sound x : value_wfb x = true -> value_wf x.
Proof. destruct x; cbn [value_wfb value_wf]; intros H; try exact H; (apply Forall_forall; intros c Hc; exact (proj1 (forallb_forall _ _) H c Hc)). Qed.
Definition typed_pairb (p : pair) : bool := match expected_type (p_code p) with Some t => vtype_eqb t (value_type (p_value p)) | None => false end.
Lemma typed_pairb_sound p : typed_pairb p = true -> typed p.
Proof.
  unfold typed_pairb. intros H. apply typed_expected. destruct (expected_type (p_code p)); [|discriminate H]. apply vtype_eqb_eq in H. congruence.
Qed.
Definition text_storableb (v : version) (p : pair) : bool :=
  typed_pairb p && value_wfb (p_value p) && negb (p_code p =? 999) &&
  match p_value p with
  | VDouble d => decimalb d
  | VStr s => simple s || (version_leb R2007 v && negb (hd 0 s =? 0xFEFF)%N)
  | _ => true
  end.
Lemma text_storableb_sound v p : text_storableb v p = true -> text_storable v p.
Proof.
  unfold text_storableb. intros H. apply andb_true_iff in H as [H H4]. apply andb_true_iff in H as [H H3]. apply andb_true_iff in H as [H1 H2].
  split; [apply typed_pairb_sound, H1|]. split; [|apply Z.eqb_neq, negb_true_iff, H3]. apply value_wfb_sound in H2.
  destruct (p_value p) as [| | | | |s|]; try (split; [exact H2|exact Logic.I]).
  - split; [exact H2|apply decimalb_sound, H4].
  - apply orb_true_iff in H4 as [H4|H4]; [apply simple_faithful, H4|]. apply andb_true_iff in H4 as [H4 H5]. split; [exact H2|].
    unfold file_encoding. rewrite H4. rewrite encodings, H4. split; [left; reflexivity|]. apply negb_true_iff, N.eqb_neq in H5. exact H5.
Qed.
Definition binary_storableb (v : version) (p : pair) : bool :=
  typed_pairb p && value_wfb (p_value p) && negb (p_code p =? 999) &&
  match p_value p with
  | VBool z => negb (version_leb R13 v) || ((0 <=? z) && (z <? 256))
  | VStr s => forallb (fun c => c <? 128)%N s
  | VBin b => (length b <? 256)%nat
  | _ => true
  end.
Lemma binary_storableb_sound v p : binary_storableb v p = true -> binary_storable v p.
Proof.
  unfold binary_storableb. intros H. apply andb_true_iff in H as [H H4]. apply andb_true_iff in H as [H H3]. apply andb_true_iff in H as [H1 H2].
  split; [apply typed_pairb_sound, H1|]. split; [|apply Z.eqb_neq, negb_true_iff, H3]. apply value_wfb_sound in H2. split; [exact H2|].
  destruct (p_value p) as [z| | | | |s|b]; try exact Logic.I.
  - destruct (version_leb R13 v); [|exact Logic.I]. cbn [negb orb] in H4. lia.
  - apply (forall_b _ (fun c => c <? 128)%N); [|exact H4]. intros c. apply N.ltb_lt.
  - apply Nat.ltb_lt, H4.
Qed.
Definition storesb (storable : version -> pair -> bool) (v : version) (d : drawing) : bool :=
  match code_pairs d with Ok ps => forallb (storable v) ps | Err _ => false end.
Lemma storesb_sound storable (P : version -> pair -> Prop) v d : (forall p, storable v p = true -> P v p) -> storesb storable v d = true ->
  exists ps, code_pairs d = Ok ps /\ Forall (P v) ps.
Proof.
  intros H S. unfold storesb in S. destruct (code_pairs d) as [ps|]; [|discriminate S]. exists ps. split; [reflexivity|]. exact (forall_b _ _ _ H S).
Qed.

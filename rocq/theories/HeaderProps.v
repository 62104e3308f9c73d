(** Property C32: header variables. *)
From Verif Require Import Base TextModel F64Model CodePairModel VersionModel StreamModel SpecModel SpecSpec SpecCheck SpecWitness HeaderModel HeaderSpec HeaderData HeaderProofs.
Local Open Scope string_scope.
Local Open Scope list_scope.
Open Scope Z_scope.
Set Default Goal Selector "!".

(** The fields that do not come back for a version. *)
Definition header_lost (v : version) : list string :=
  (if version_eqb v R11 then ["version"] else []) ++
  (if version_leb R2000 v then ["dimension_text_and_arrow_placement"] else []) ++
  (if version_leb R2004 v then ["halo_gap_percent"] else []) ++
  (if version_leb R2004 v && version_leb v R2007 then ["is_x_ref_clipping_boundary_visible"] else []).
Lemma header_names : names_ok header_fields = true.
Proof. vm_compute. reflexivity. Qed.
Lemma header_checks : forallb (fun v => check_header header_spec header_fields v (header_lost v)) all_versions = true.
Proof. vm_compute. reflexivity. Qed.
Lemma checked_survives fs lost v : names_ok fs = true -> check_header header_spec fs v lost = true -> header_survives header_spec fs v lost.
Proof.
  intros Hn H env h rest Ht Hv Hr.
  destruct (header_reads header_spec fs v lost env h Ht Hn Hv H) as (p0 & p1 & ps & st & E & _ & _ & F & G).
  exists (p0 :: p1 :: ps), st, (version_leb R2007 v). split; [exact E|]. split; [apply (F (fun it => it) (map Ok ps ++ rest)%list); [exact Hr|destruct (version_leb R2007 v); reflexivity]|].
  intros f Hf Hl. apply G; [exact Hf|]. apply not_true_iff_false. intros X. apply Hl. unfold memb in X. apply existsb_exists in X.
  destruct X as (s & Hs & X). apply String.eqb_eq in X. rewrite X. exact Hs.
Qed.

(** Every header variable the version stores is read back with the same value, the others read back as defaults; the exceptions
    are [header_lost]. *)
Theorem C32_header_survives : forall v, header_survives header_spec header_fields v (header_lost v).
Proof.
  intros v. apply checked_survives; [exact header_names|].
  exact (proj1 (forallb_forall _ _) header_checks v (all_versions_all v)).
Qed.
Print Assumptions C32_header_survives.

(** With values that the file can hold in the two lossy conversions (a whole percentage, and a clipping visibility that is
    not the third one), these come back, too. *)
Definition restricted (f : hfield) : hfield :=
  if String.eqb (hf_name f) "halo_gap_percent" then mk_hfield (hf_name f) HWhole16K (hf_codes f) (hf_windows f)
  else if String.eqb (hf_name f) "is_x_ref_clipping_boundary_visible" then mk_hfield (hf_name f) (HKind (KEnum [0; 1])) (hf_codes f) (hf_windows f)
  else f.
Definition still_lost (v : version) : list string :=
  (if version_eqb v R11 then ["version"] else []) ++
  (if version_leb R2000 v then ["dimension_text_and_arrow_placement"] else []).
Lemma restricted_checks : forallb (fun v => check_header header_spec (map restricted header_fields) v (still_lost v)) all_versions = true.
Proof. vm_compute. reflexivity. Qed.
Theorem C32_lossy_fields_survive_if_representable : forall v, header_survives header_spec (map restricted header_fields) v (still_lost v).
Proof.
  intros v. apply checked_survives; [vm_compute; reflexivity|].
  exact (proj1 (forallb_forall _ _) restricted_checks v (all_versions_all v)).
Qed.
Print Assumptions C32_lossy_fields_survive_if_representable.

(** * The exceptions are real *)
Definition hkindb (k : hkind) (x : fval) : bool :=
  match k, x with
  | HKind k, x => kindb k x
  | HVersionK, FInt z => existsb (fun v => Z.of_N (version_index v) =? z) versions
  | HUuidK, FInt u => (0 <=? u) && (u <? 2 ^ 128)
  | HDateK, FInt s => (0 <=? s) && (s <=? max_date - 3)
  | HDurationK, FInt n => (0 <=? n) && (n <? 2 ^ 53)
  | HWhole16K, FF64 d => existsb (fun z => (d =? f64_of_Z z)%N) [0; 50]
  | _, _ => false
  end.
Lemma hkindb_sound k x : hkindb k x = true -> has_hkind k x.
Proof.
  destruct k as [k| | | | |]; cbn [hkindb has_hkind]; intros H.
  - apply kindb_sound, H.
  - destruct x; try discriminate H. apply existsb_exists in H. destruct H as (v & _ & E). exists v. unfold version_val. f_equal. lia.
  - destruct x; try discriminate H. eexists. split; [reflexivity|]. lia.
  - destruct x; try discriminate H. eexists. split; [reflexivity|]. lia.
  - destruct x; try discriminate H. eexists. split; [reflexivity|]. lia.
  - destruct x; try discriminate H. apply existsb_exists in H. destruct H as (z & Hz & E). apply N.eqb_eq in E. subst. exists z. split; [reflexivity|].
    cbn [In] in Hz. lia.
Qed.
Definition hfitsb (k : hkind) (c : Z) (x : fval) : bool := match k with HKind k => fitsb k c x | _ => true end.
Definition htypedb (fs : list hfield) (fit : bool) (h : store) : bool :=
  forallb (fun f => if hkindb (hf_kind f) (h (hf_name f)) then if fit then forallb (fun c => hfitsb (hf_kind f) c (h (hf_name f))) (hf_codes f) else true else false) fs.
Lemma htypedb_kinds fs fit h : htypedb fs fit h = true -> forall f, In f fs -> has_hkind (hf_kind f) (h (hf_name f)).
Proof.
  unfold htypedb. rewrite forallb_forall. intros H f Hf. specialize (H f Hf). apply hkindb_sound. destruct (hkindb _ _); [reflexivity|discriminate H].
Qed.
Lemma htypedb_sound fs h : htypedb fs true h = true -> h_typed fs h.
Proof.
  intros H f Hf. split; [exact (htypedb_kinds _ _ _ H f Hf)|]. unfold htypedb in H. rewrite forallb_forall in H. specialize (H f Hf).
  destruct (hkindb _ _); [|discriminate H]. rewrite forallb_forall in H. apply Forall_forall. intros c Hc. specialize (H c Hc).
  destruct (hf_kind f); try exact Logic.I. apply fitsb_sound, H.
Qed.
Definition end_mark : res pair := Ok (mk_pair 0 (VStr (str "ENDSEC"))).
(** Times and identifiers of the examples. *)
Definition env0 : store := fun s => if memb s ["fingerprint_guid"; "version_guid"] then FInt 305419896 else FInt 3155666315.
Definition header_with (v : version) (l : list (string * fval)) : store := fun s =>
  if String.eqb s "version" then version_val v
  else match assoc_slot s l with Some x => x | None => header_default header_spec env0 s end.
Definition losesb (v : version) (fit : bool) (s : string) (h : store) : bool :=
  if htypedb header_fields fit h then
    if existsb (fun f => if String.eqb (hf_name f) s then if existsb (in_windowb v) (hf_windows f) then not_date (hf_kind f) else false else false) header_fields then
      match write_header header_spec h with
      | Ok ps => match read_header header_spec (fun it => it) false env0 (map Ok ps ++ [end_mark]) with
                 | Ok (st, _, _) => negb (sameb (st s) (h s))
                 | Err _ => true
                 end
      | Err _ => true
      end
    else false
  else false.
Lemma losesb_sound v fit s l : losesb v fit s (header_with v l) = true -> header_loses header_spec header_fields v fit s.
Proof.
  unfold losesb. intros H. destruct (htypedb _ _ _) eqn:T; [|discriminate H]. destruct (existsb _ header_fields) eqn:X; [|discriminate H].
  exists env0, (header_with v l). split; [exact (htypedb_kinds _ _ _ T)|]. split; [intros ->; apply htypedb_sound, T|]. split; [reflexivity|].
  intros (ps & st & u & E & R & K). rewrite E in H. unfold end_mark in H. rewrite R in H.
  apply existsb_exists in X. destruct X as (f & Hf & X). destruct (String.eqb (hf_name f) s) eqn:N; [|discriminate X]. apply String.eqb_eq in N.
  destruct (existsb (in_windowb v) (hf_windows f)) eqn:W; [|discriminate X]. destruct (K f Hf N) as [K1 _]. specialize (K1 (proj1 (hstored_ok _ _) W)).
  rewrite N in K1. assert (S : same (st s) (header_with v l s)) by (destruct (hf_kind f); try discriminate X; exact K1).
  apply sameb_complete in S. rewrite S in H. discriminate H.
Qed.
Lemma for_versions (p q : version -> bool) : forallb (fun v => if q v then p v else true) all_versions = true -> forall v, q v = true -> p v = true.
Proof. intros H v Hq. pose proof (proj1 (forallb_forall _ _) H v (all_versions_all v)) as E. cbn beta in E. rewrite Hq in E. exact E. Qed.

(** An R11 header comes back as R12. *)
Theorem C32_r11_refuted : header_loses header_spec header_fields R11 true "version".
Proof. apply losesb_sound with (l := []). vm_compute. reflexivity. Qed.
Print Assumptions C32_r11_refuted.
(** $DIMATFIT is written from R2000 on but has no arm in the reader: it shares its field with $DIMFIT. *)
Theorem C32_dimension_fit_refuted : forall v, version_leb R2000 v = true ->
  header_loses header_spec header_fields v true "dimension_text_and_arrow_placement".
Proof.
  intros v Hv. apply losesb_sound with (l := [("dimension_text_and_arrow_placement", FInt 2)]).
  revert v Hv. apply for_versions. vm_compute. reflexivity.
Qed.
Print Assumptions C32_dimension_fit_refuted.
(** $HALOGAP is a double in the API but is truncated to 16 bits in the file. *)
Theorem C32_halo_gap_refuted : forall v, version_leb R2004 v = true -> header_loses header_spec header_fields v true "halo_gap_percent".
Proof.
  intros v Hv. apply losesb_sound with (l := [("halo_gap_percent", FF64 0x3FE0000000000000)]).
  revert v Hv. apply for_versions. vm_compute. reflexivity.
Qed.
Print Assumptions C32_halo_gap_refuted.
(** The default of $XCLIPFRAME, displayed but not plotted, becomes displayed and plotted. *)
Theorem C32_clipping_refuted : forall v, version_leb R2004 v && version_leb v R2007 = true ->
  header_loses header_spec header_fields v true "is_x_ref_clipping_boundary_visible".
Proof.
  intros v Hv. apply losesb_sound with (l := []). revert v Hv.
  apply (for_versions (fun v => losesb v true _ (header_with v [])) (fun v => version_leb R2004 v && version_leb v R2007)). vm_compute. reflexivity.
Qed.
Print Assumptions C32_clipping_refuted.
(** 32-bit fields stored under 16-bit codes lose their upper half. *)
Theorem C32_wide_integers_refuted :
  (forall v, version_leb v R14 = true -> header_loses header_spec header_fields v false "object_snap_flags") /\
  (forall v, header_loses header_spec header_fields v false "point_display_mode") /\
  (forall v, version_leb R2004 v = true -> header_loses header_spec header_fields v false "object_sorting_methods_flags") /\
  (forall v, version_leb R2007 v = true -> header_loses header_spec header_fields v false "loft_flags").
Proof.
  repeat split; intros v; try intros Hv.
  - apply losesb_sound with (l := [("object_snap_flags", FInt 65536)]). revert v Hv. apply for_versions. vm_compute. reflexivity.
  - apply losesb_sound with (l := [("point_display_mode", FInt 65536)]). revert v. intros v.
    apply (for_versions (fun v => losesb v false _ (header_with v [("point_display_mode", FInt 65536)])) (fun _ => true)); [vm_compute; reflexivity|reflexivity].
  - apply losesb_sound with (l := [("object_sorting_methods_flags", FInt 65536)]). revert v Hv. apply for_versions. vm_compute. reflexivity.
  - apply losesb_sound with (l := [("loft_flags", FInt 65536)]). revert v Hv. apply for_versions. vm_compute. reflexivity.
Qed.
Print Assumptions C32_wide_integers_refuted.

(** A variable the reader does not know is skipped with its values; a known variable with a value of a wrong code is an error. *)
Definition known_variable (name : rstring) : Prop := In name (map fst header_setters).
Lemma unknown_no_setter name : ~ known_variable name -> assoc_str name header_setters = None.
Proof.
  unfold known_variable. generalize header_setters. intros l H. induction l as [|[k x] l IH]; [reflexivity|]. cbn [assoc_str].
  destruct (seqb name k) eqn:E; [apply seqb_eq in E; subst; contradiction H; left; reflexivity|]. apply IH. intros X. apply H. right. exact X.
Qed.
Lemma skip_values sw name : ~ known_variable name -> name <> acadver -> forall ps h rest,
  Forall (fun p => p_code p <> 0 /\ p_code p <> 9) ps ->
  header_loop header_spec sw (Some name) h (map Ok ps ++ rest)%list = header_loop header_spec sw (Some name) h rest.
Proof.
  intros Hn Ha. induction ps as [|p ps IH]; intros h rest H; [reflexivity|]. inversion H as [|? ? [H0 H9] Hp]; subst.
  cbn [map app header_loop]. rewrite (proj2 (Z.eqb_neq _ _) H0), (proj2 (Z.eqb_neq _ _) H9).
  unfold set_header_value. change (hs_setters header_spec) with header_setters. rewrite (unknown_no_setter name Hn). cbn [bind].
  fold acadver. rewrite (proj2 (seqb_neq name acadver) Ha). cbn [andb]. apply IH, Hp.
Qed.
Theorem C32_unknown_variables_skipped : forall sw cur h name values rest,
  ~ known_variable name -> Forall (fun p => p_code p <> 0 /\ p_code p <> 9) values -> (rest = [] \/ exists p r, rest = Ok p :: r /\ (p_code p = 0 \/ p_code p = 9)) ->
  header_loop header_spec sw cur h (Ok (mk_pair 9 (VStr name)) :: map Ok values ++ rest)%list = header_loop header_spec sw cur h rest.
Proof.
  intros sw cur h name values rest Hn Hv Hr. cbn [header_loop p_code Z.eqb Pos.eqb]. cbn [assert_string p_value bind].
  assert (Ha : name <> acadver).
  { intros ->. apply Hn. unfold known_variable.
    assert (E : existsb (seqb acadver) (map fst header_setters) = true) by (vm_compute; reflexivity).
    apply existsb_exists in E. destruct E as (x & Hx & E). apply seqb_eq in E. rewrite E. exact Hx. }
  rewrite skip_values by assumption. destruct Hr as [->|(p & r & -> & [Hp|Hp])]; cbn [header_loop]; rewrite ?Hp; reflexivity.
Qed.
Print Assumptions C32_unknown_variables_skipped.
Fixpoint rdistinct (l : list rstring) : bool := match l with [] => true | x :: r => if existsb (seqb x) r then false else rdistinct r end.
Lemma distinct_assoc {A} n (x : A) l : rdistinct (map fst l) = true -> In (n, x) l -> assoc_str n l = Some x.
Proof.
  induction l as [|[k y] l IH]; intros H Hin; [destruct Hin|]. cbn [map fst rdistinct] in H. destruct (existsb (seqb k) (map fst l)) eqn:D; [discriminate H|].
  cbn [assoc_str]. destruct Hin as [E|Hin]; [injection E as -> ->; rewrite seqb_refl; reflexivity|].
  destruct (seqb n k) eqn:E; [|apply IH; assumption]. apply seqb_eq in E. subst k. exfalso. rewrite <- not_true_iff_false in D. apply D.
  apply existsb_exists. exists n. split; [|apply seqb_refl]. exact (in_map fst _ _ Hin).
Qed.
Theorem C32_wrong_code_is_an_error : forall sw cur h name c p rest x s r,
  In (name, x) header_setters -> x = HOne c s r -> p_code p <> c -> p_code p <> 0 -> p_code p <> 9 ->
  exists e, header_loop header_spec sw cur h (Ok (mk_pair 9 (VStr name)) :: Ok p :: rest)%list = Err e.
Proof.
  intros sw cur h name c p rest x s r Hin -> Hc H0 H9. exists (UnexpectedCode (p_code p) 0).
  cbn [header_loop p_code Z.eqb Pos.eqb]. cbn [assert_string p_value bind]. rewrite (proj2 (Z.eqb_neq _ _) H0), (proj2 (Z.eqb_neq _ _) H9).
  assert (E : assoc_str name header_setters = Some (HOne c s r)) by (apply distinct_assoc; [vm_compute; reflexivity|exact Hin]).
  unfold set_header_value. change (hs_setters header_spec) with header_setters. rewrite E. cbn [harm_of].
  rewrite (proj2 (Z.eqb_neq c (p_code p))) by congruence. reflexivity.
Qed.
Print Assumptions C32_wrong_code_is_an_error.

Example C32_case : exists ps st u,
  let h := header_with R2010 [("current_layer", FStr (str "walls")); ("insertion_base.x", FF64 0x3FF8000000000000); ("next_available_handle", FHandle 77);
                              ("project_name", FStr (str "p")); ("dimension_decimal_separator_char", FInt 44)] in
  h_typed header_fields h /\ write_header header_spec h = Ok ps /\
  read_header header_spec (fun it => it) false env0 (map Ok ps ++ [end_mark]) = Ok (st, u, [end_mark]) /\
  u = true /\ st "version" = version_val R2010 /\ st "current_layer" = FStr (str "walls") /\ st "insertion_base.x" = FF64 0x3FF8000000000000 /\
  st "next_available_handle" = FHandle 77 /\ st "dimension_decimal_separator_char" = FInt 44.
Proof.
  eexists. eexists. eexists. cbv zeta. split; [apply htypedb_sound; vm_compute; reflexivity|]. split; [vm_compute; reflexivity|].
  split; [vm_compute; reflexivity|]. repeat split.
Qed.

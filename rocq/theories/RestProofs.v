(** The further types are read and written as the reference says. *)
From Verif Require Import Base F64Model CodePairModel CodePairSpec VersionModel SpecModel SpecSpec SpecCheck SpecProofs DrawingModel DocSpec FileModel EntityData ObjectData DocProofs ListSpec ListProofs RestSpec.
Open Scope string_scope.
Open Scope list_scope.
Open Scope Z_scope.
Set Default Goal Selector "!".

Definition type_ok (t : itype) (kind : string) (v : version) (rows : list row) : bool :=
  String.eqb (sp_name (it_spec t)) kind && item_read (it_spec t) rows && forallb (row_typed (sp_arms (it_spec t))) rows && type_since (it_spec t) v.
Definition type_writes (t : itype) (rows : list row) : bool := forallb (writes_row entity_groups (sp_cmds (it_spec t))) rows.
Definition rest_ok (e : string * string * version * list row) : bool :=
  let '(ty, kind, v, rows) := e in
  match from_type_string (str ty) with
  | Some t => type_ok t kind v rows && type_writes t rows && seqb (sp_type (it_spec t)) (str ty) && negb (seqb (str ty) (str "ENDSEC") || seqb (str ty) (str "ENDBLK")) && negb (seqb (str ty) (str "DIMENSION"))
  | None => false
  end.
Definition rest_object_ok (e : string * string * version * list row) : bool :=
  let '(ty, kind, v, rows) := e in existsb (fun t => seqb (sp_type (it_spec t)) (str ty)) objects && forallb (fun t => negb (seqb (sp_type (it_spec t)) (str ty)) || type_ok t kind v rows && type_writes t rows) objects.
Lemma rests_ok : forallb rest_ok rest_entities && forallb rest_object_ok rest_objects = true.
Proof. vm_compute. reflexivity. Qed.
Lemma rest_type ty kind v rows : In (ty, kind, v, rows) rest_entities -> exists t, type_ok t kind v rows = true /\ type_writes t rows = true /\ sp_type (it_spec t) = str ty /\ from_type_string (str ty) = Some t /\
  forall r, read_entity (Ok (mk_pair 0 (VStr (str ty))) :: r) = (let? (o, r') := read_item (it_spec t) r in (match o with Some st => Ok (Some (t, st), r') | None => read_entity_fuel (S (length r)) r' end)).
Proof.
  intros H. pose proof rests_ok as C. apply andb_true_iff in C as [C _]. rewrite forallb_forall in C. specialize (C _ H). unfold rest_ok in C. destruct (from_type_string (str ty)) as [t|] eqn:E; [|discriminate C].
  apply andb_true_iff in C as [C C5]. apply andb_true_iff in C as [C C4]. apply andb_true_iff in C as [C C3]. apply andb_true_iff in C as [C1 C2]. exists t. split; [exact C1|]. split; [exact C2|]. split; [exact (proj1 (seqb_eq _ _) C3)|]. split; [reflexivity|].
  intros r. unfold read_entity. cbn [length read_entity_fuel p_code p_value assert_string bind]. change (0 =? 0) with true. cbn iota. apply negb_true_iff in C4, C5. rewrite C4, C5, E. reflexivity.
Qed.
Lemma rest_object_type ty kind v rows t : In (ty, kind, v, rows) rest_objects -> In t objects -> sp_type (it_spec t) = str ty -> type_ok t kind v rows = true /\ type_writes t rows = true.
Proof.
  intros H Ht E. pose proof rests_ok as C. apply andb_true_iff in C as [_ C]. rewrite forallb_forall in C. specialize (C _ H). unfold rest_object_ok in C. apply andb_true_iff in C as [_ C]. rewrite forallb_forall in C. specialize (C t Ht). rewrite E, seqb_refl in C. cbn [negb orb] in C.
  apply andb_true_iff in C. exact C.
Qed.
Lemma type_follows t kind v rows ps nx rest o r : type_ok t kind v rows = true -> plain ps -> p_code nx = 0 -> read_item (it_spec t) (map Ok ps ++ Ok nx :: rest) = Ok (o, r) ->
  sp_name (it_spec t) = kind /\ r = Ok nx :: rest /\ exists st, o = Some st /\ forall w, In w rows -> field_follows ps st w.
Proof.
  intros C P Z0 H. unfold type_ok in C. apply andb_true_iff in C as [C C4]. apply andb_true_iff in C as [C C3]. apply andb_true_iff in C as [C1 C2]. split; [exact (proj1 (String.eqb_eq _ _) C1)|]. exact (item_follows _ _ _ _ _ _ _ C2 P Z0 H).
Qed.
Lemma type_accepts t kind v rows ps nx rest : type_ok t kind v rows = true -> Forall (documented_pair rows) ps -> p_code nx = 0 -> sp_name (it_spec t) = kind /\ exists st, read_item (it_spec t) (map Ok ps ++ Ok nx :: rest) = Ok (Some st, Ok nx :: rest).
Proof.
  intros C P Z0. unfold type_ok in C. apply andb_true_iff in C as [C C4]. apply andb_true_iff in C as [C C3]. apply andb_true_iff in C as [C1 C2]. split; [exact (proj1 (String.eqb_eq _ _) C1)|]. exact (item_accepts _ _ _ _ rest C2 C3 P Z0).
Qed.
Lemma type_pairs t kind v0 rows v st ps : type_ok t kind v0 rows = true -> type_writes t rows = true -> version_leb v0 v = true -> no_groups entity_groups st -> write_typed t v true st (Ok []) = Ok ps ->
  exists own, ps = mk_pair 0 (VStr (sp_type (it_spec t))) :: own /\ forall w, In w rows -> version_leb (rw_since w) v = true -> pairs_follow own st w.
Proof.
  intros C D V G W. unfold type_ok in C. apply andb_true_iff in C as [C C4]. unfold type_writes in D. rewrite forallb_forall in D. unfold write_typed in W. rewrite (since_supported _ _ _ C4 V) in W. destruct (write_item _ _ _ _) as [own|] eqn:E; cbn [bind] in W; [|discriminate W]. injection W as <-.
  exists own. rewrite app_nil_r. split; [reflexivity|]. intros w Hw Vw. exact (item_pairs_follow _ _ _ _ _ _ (D w Hw) G Vw E).
Qed.
(** The texts of R2000. *)
Definition text_ok (e : string * string * list row) : bool :=
  let '(ty, kind, rows) := e in
  match from_type_string (str ty) with
  | Some t => String.eqb (sp_name (it_spec t)) kind && item_read (it_spec t) rows && forallb (row_typed (sp_arms (it_spec t))) rows && supported (it_spec t) R2000 && type_writes t rows &&
              seqb (sp_type (it_spec t)) (str ty) && negb (seqb (str ty) (str "ENDSEC") || seqb (str ty) (str "ENDBLK")) && negb (seqb (str ty) (str "DIMENSION"))
  | None => false
  end.
Lemma texts_ok : forallb text_ok r2000_entities = true.
Proof. vm_compute. reflexivity. Qed.
Lemma text_type ty kind rows : In (ty, kind, rows) r2000_entities -> exists t, sp_name (it_spec t) = kind /\ item_read (it_spec t) rows = true /\ forallb (row_typed (sp_arms (it_spec t))) rows = true /\ supported (it_spec t) R2000 = true /\ type_writes t rows = true /\
  sp_type (it_spec t) = str ty /\ from_type_string (str ty) = Some t /\
  forall r, read_entity (Ok (mk_pair 0 (VStr (str ty))) :: r) = (let? (o, r') := read_item (it_spec t) r in (match o with Some st => Ok (Some (t, st), r') | None => read_entity_fuel (S (length r)) r' end)).
Proof.
  intros H. pose proof (proj1 (forallb_forall _ _) texts_ok _ H) as C. unfold text_ok in C. destruct (from_type_string (str ty)) as [t|] eqn:E; [|discriminate C].
  repeat match type of C with _ && _ = true => let D := fresh "D" in apply andb_true_iff in C as [C D] end. exists t. split; [exact (proj1 (String.eqb_eq _ _) C)|]. split; [exact D5|]. split; [exact D4|]. split; [exact D3|]. split; [exact D2|]. split; [exact (proj1 (seqb_eq _ _) D1)|]. split; [reflexivity|].
  intros r. unfold read_entity. cbn [length read_entity_fuel p_code p_value assert_string bind]. change (0 =? 0) with true. cbn iota. apply negb_true_iff in D, D0. rewrite D0, D, E. reflexivity.
Qed.
Lemma text_pairs t rows st ps : supported (it_spec t) R2000 = true -> type_writes t rows = true -> no_groups entity_groups st -> write_typed t R2000 true st (Ok []) = Ok ps ->
  exists own, ps = mk_pair 0 (VStr (sp_type (it_spec t))) :: own /\ forall w, In w rows -> version_leb (rw_since w) R2000 = true -> pairs_follow own st w.
Proof.
  intros S D G W. unfold type_writes in D. rewrite forallb_forall in D. unfold write_typed in W. rewrite S in W. destruct (write_item _ _ _ _) as [own|] eqn:E; cbn [bind] in W; [|discriminate W]. injection W as <-.
  exists own. rewrite app_nil_r. split; [reflexivity|]. intros w Hw Vw. exact (item_pairs_follow _ _ _ _ _ _ (D w Hw) G Vw E).
Qed.
(** The identifiers of proxies. *)
Lemma proxy_read : groups_marked (sp_arms (it_spec ent_proxy_entity)) && forallb (list_read (it_spec ent_proxy_entity)) proxy_lists = true.
Proof. vm_compute. reflexivity. Qed.
Lemma proxy_written : forallb (list_write entity_groups R2000 (sp_cmds (it_spec ent_proxy_entity))) (tl proxy_lists) && type_since (it_spec ent_proxy_entity) R2000 = true.
Proof. vm_compute. reflexivity. Qed.
Lemma proxy_follows ps nx rest o r : plain ps -> p_code nx = 0 -> read_item (it_spec ent_proxy_entity) (map Ok ps ++ Ok nx :: rest) = Ok (o, r) -> r = Ok nx :: rest /\ exists st, o = Some st /\ forall w, In w proxy_lists -> list_follows ps st w.
Proof.
  intros P Z0 H. pose proof proxy_read as C. apply andb_true_iff in C as [C1 C2]. destruct (item_lists _ _ _ _ _ _ C1 eq_refl P Z0 H) as (R & st & E & F). split; [exact R|]. exists st. split; [exact E|]. intros w Hw. apply F. exact (proj1 (forallb_forall _ _) C2 w Hw).
Qed.
Lemma proxy_pairs_list v st ps : version_leb R2000 v = true -> no_groups entity_groups st -> write_typed ent_proxy_entity v true st (Ok []) = Ok ps ->
  exists own, ps = mk_pair 0 (VStr (str "ACAD_PROXY_ENTITY")) :: own /\ forall w, In w (tl proxy_lists) -> pairs_list own st w.
Proof.
  intros V G W. pose proof proxy_written as C. apply andb_true_iff in C as [C1 C2]. unfold write_typed in W. rewrite (since_supported _ _ _ C2 V) in W. destruct (write_item _ _ _ _) as [own|] eqn:E; cbn [bind] in W; [|discriminate W]. injection W as <-.
  exists own. rewrite app_nil_r. split; [reflexivity|]. intros w Hw. exact (item_pairs_list _ _ _ _ _ _ _ (proj1 (forallb_forall _ _) C1 w Hw) G V E).
Qed.
(** The identifiers of proxy objects. *)
Definition id_parts : list string := ["__object_ids_a"; "__object_ids_b"; "__object_ids_c"; "__object_ids_d"].
Lemma ids_ok : groups_marked (sp_arms (it_spec obj_acad_proxy_object)) && forallb (fun x => pushes (sp_arms (it_spec obj_acad_proxy_object)) (fst x) (snd x) Text && list_default (it_spec obj_acad_proxy_object) (fst x)) (combine id_parts identifier_codes) &&
  untouched (sp_arms (it_spec obj_acad_proxy_object)) "object_ids" && list_default (it_spec obj_acad_proxy_object) "object_ids" = true.
Proof. vm_compute. reflexivity. Qed.
Definition texts (ps : list pair) : Prop := Forall (fun p => In (p_code p) identifier_codes -> exists s, p_value p = VStr s) ps.
Lemma texts_under c ps : In c identifier_codes -> texts ps -> Forall2 (fun v x => understood Text v = Some x) (under c ps) (map (fun v => match v with VStr s => FStr s | _ => FInt 0 end) (under c ps)).
Proof.
  intros C. induction 1 as [|p ps H _ IH]; [constructor|]. rewrite under_cons. destruct (p_code p =? c) eqn:E; cbn [app map]; [|exact IH]. constructor; [|exact IH]. destruct H as [s ->]; [|reflexivity]. replace (p_code p) with c by lia. exact C.
Qed.
Lemma ids_follow ps nx rest st r : plain ps -> texts ps -> p_code nx = 0 -> read_item (it_spec obj_acad_proxy_object) (map Ok ps ++ Ok nx :: rest) = Ok (Some st, r) -> r = Ok nx :: rest /\ st "object_ids" = FList (identifiers ps).
Proof.
  intros P T Z0 H. pose proof ids_ok as C. apply andb_true_iff in C as [C C4]. apply andb_true_iff in C as [C C3]. apply andb_true_iff in C as [C1 C2]. unfold read_item in H. destruct (run _ _ _ _ _ _) as [[[st1 regs1] it1]|] eqn:E; cbn [bind] in H; [|discriminate H].
  destruct (run_lists _ _ _ _ C1 Z0 _ _ _ _ _ _ _ P E) as (R1 & R2 & R3). cbv beta iota in H. match type of H with context [if ?b then _ else _] => destruct b end; [|discriminate H]. injection H as <- <-. split; [exact R1|].
  assert (forall s c, In (s, c) (combine id_parts identifier_codes) -> In c identifier_codes -> st1 s = FList (map (fun v => match v with VStr s => FStr s | _ => FInt 0 end) (under c ps))) as F.
  { intros s c I J. rewrite forallb_forall in C2. specialize (C2 _ I). cbn [fst snd] in C2. apply andb_true_iff in C2 as [D1 D2]. exact (R3 _ _ _ D1 [] _ (list_default_sound _ _ D2) (texts_under _ _ J T)). }
  assert (st1 "object_ids" = FList []) as D by (rewrite (R2 _ C3); exact (list_default_sound _ _ C4)).
  change (sp_finals (it_spec obj_acad_proxy_object)) with [PConcat id_parts "object_ids"]. unfold id_parts. cbn [fold_left finish flat_map]. cbv zeta.
  rewrite (F "__object_ids_a" 330), (F "__object_ids_b" 340), (F "__object_ids_c" 350), (F "__object_ids_d" 360), D by (cbn; tauto). reflexivity.
Qed.

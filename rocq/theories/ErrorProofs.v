(** What is left of the input when an iterator over entities or objects has turned an error into the end of the iteration. *)
From Verif Require Import Base F64Model CodePairModel CodePairProofs ReaderProofs VersionModel StreamModel ExtDataModel SpecModel SpecSpec TableData EntityData
  ObjectData SectionData HeaderModel HeaderData CustomModel ThumbnailModel DrawingModel FileModel SuffixProofs LoadSpec LoadProofs SkipProofs.
Open Scope string_scope.
Open Scope list_scope.
Open Scope Z_scope.
Set Default Goal Selector "!".

(** [r] is left of [it] after some pairs and at most one malformed one, the last, have been taken. *)
Definition bare (r it : feed) : Prop := suffix r it \/ exists pre e, it = map Ok pre ++ Err e :: r.
Lemma bare_refl it : bare it it.
Proof. left. apply suffix_refl. Qed.
Lemma bare_suffix a b c : suffix b c -> bare a b -> bare a c.
Proof.
  intros S [T|[pre [e ->]]]; [left; eapply suffix_trans; eassumption|]. destruct S as [p ->]. right. exists (p ++ pre), e. rewrite map_app, app_assoc. reflexivity.
Qed.
Lemma bare_tail a b : bare a b -> tail_of a b.
Proof. intros [S|[pre [e ->]]]; [apply suffix_tail, S|]. exists (map Ok pre ++ [Err e]). rewrite <- app_assoc. reflexivity. Qed.
Lemma first_error_at u e r : first_error (map Ok u ++ Err e :: r) = Some e.
Proof. induction u as [|p u IH]; [reflexivity|exact IH]. Qed.

(** The pairs before the first malformed one. *)
Fixpoint clean (it : feed) : list pair := match it with Ok p :: r => p :: clean r | _ => [] end.
Lemma clean_suffix p r it : suffix r it -> In p (clean r) -> In p (clean it).
Proof. intros [pre ->] H. induction pre as [|x pre IH]; [exact H|]. cbn [map app clean]. right. exact IH. Qed.
Lemma clean_prefix p u r : In p u -> In p (clean (map Ok u ++ r)).
Proof. intros H. induction u as [|x u IH]; [destruct H|]. destruct H as [->|H]; [left; reflexivity|right; exact (IH H)]. Qed.
Lemma clean_at u e r : clean (map Ok u ++ Err e :: r) = u.
Proof. induction u as [|p u IH]; [reflexivity|]. cbn [map app clean]. rewrite IH. reflexivity. Qed.
Definition clean_of (l : list pair) (it : feed) : Prop := forall p, In p l -> ~ In p (clean it).
Lemma clean_of_suffix l r it : suffix r it -> clean_of l it -> clean_of l r.
Proof. intros S H p Hp Hi. exact (H p Hp (clean_suffix _ _ _ S Hi)). Qed.

(** A reader that fails has taken no more than the first malformed pair. *)
Lemma stop_bare {A} (f : feed -> res (A * feed)) it0 :
  (forall u e, (forall p, In p u -> In p (clean it0)) -> e <> OutOfFuel -> f (map Ok u ++ [Err e; marker]) <> Err OutOfFuel) ->
  reports it0 -> forall rest u, map Ok u ++ rest = it0 -> bare (stop_behind f (rev (map Ok u)) rest) it0.
Proof.
  intros H Hr. induction rest as [|x rest IH]; intros u Hu; cbn [stop_behind].
  - assert (S : bare [] it0) by (left; exists u; symmetry; exact Hu). destruct (f _) as [|[]]; exact S.
  - assert (S : bare (x :: rest) it0) by (left; exists u; symmetry; exact Hu). destruct (f _) as [|[]]; try exact S.
    destruct x as [p|e].
    + specialize (IH (u ++ [p])). rewrite map_app, rev_app_distr in IH. apply IH. rewrite <- Hu. cbn [map]. rewrite <- app_assoc. reflexivity.
    + assert (T : bare rest it0) by (right; exists u, e; symmetry; exact Hu).
      assert (He : e <> OutOfFuel) by (apply (Hr e); rewrite <- Hu; apply in_or_app; right; left; reflexivity).
      assert (Hin : forall p, In p u -> In p (clean it0)) by (intros p Hp; rewrite <- Hu; apply clean_prefix, Hp).
      specialize (H u e Hin He). destruct rest as [|y rest]; cbn [stop_behind rev]; rewrite rev_involutive, <- app_assoc; cbn [app];
        (destruct (f (map Ok u ++ [Err e; marker])) as [|[]] eqn:Q; try exact T; exfalso; apply H; reflexivity).
Qed.
Lemma swallow_bare {A} (f : feed -> res (option A * feed)) it o r :
  (forall x r, f it = Ok (x, r) -> suffix r it) ->
  (forall u e, (forall p, In p u -> In p (clean it)) -> e <> OutOfFuel -> f (map Ok u ++ [Err e; marker]) <> Err OutOfFuel) ->
  reports it -> swallow f it = Ok (o, r) -> (f it = Ok (o, r) /\ suffix r it) \/ (o = None /\ bare r it).
Proof.
  intros Hs H Hr. unfold swallow. destruct (f it) as [[x r']|e] eqn:F.
  - intros X. injection X as -> ->. left. split; [reflexivity|]. exact (Hs _ _ eq_refl).
  - intros X. assert (B : bare (after_error f it) it) by (exact (stop_bare f it H Hr it [] eq_refl)).
    destruct e; try discriminate X; injection X as <- <-; right; split; first [reflexivity|exact B].
Qed.

(** * Entities *)

Definition inE : dxf_error -> Prop := fun e => e <> OutOfFuel.
Lemma inE_ok : forall e, genuine e -> inE e.
Proof. intros e [H _]. exact H. Qed.
Lemma in_fine it : all_pairs (fine inE) it.
Proof. intros p _. left. discriminate. Qed.
Lemma entity_next_bare it o r : reports it -> entity_next it = Ok (o, r) -> (read_entity it = Ok (o, r) /\ suffix r it) \/ (o = None /\ bare r it).
Proof.
  intros Hr. apply swallow_bare; [| |exact Hr].
  - intros x r' H. pose proof (read_entity_rests anyE any_ok it (any_fine it)) as S. rewrite H in S. exact S.
  - intros u e _ He H. pose proof (read_entity_rests inE inE_ok (map Ok u ++ [Err e; marker]) (in_fine _)) as S. rewrite H in S. cbn [rests] in S.
    destruct S as [S|S]; [exact (S eq_refl)|]. rewrite first_error_at in S. injection S as ->. exact (He eq_refl).
Qed.

(** The types whose entities are followed by others that belong to them. *)
Definition gathering : list string := ["ATTRIB"; "ATTDEF"; "INSERT"; "POLYLINE"].
Definition gathers (n : string) : bool := has_mtext n || String.eqb n "Insert" || String.eqb n "Polyline".
Lemma type_strings_gather s t : In (s, t) type_strings -> gathers (sp_name (it_spec t)) = true -> exists g, In g gathering /\ s = str g.
Proof.
  intros Hi Hg.
  assert (R : forallb (fun x : rstring * itype => negb (gathers (sp_name (it_spec (snd x)))) || existsb (fun g => seqb (fst x) (str g)) gathering) type_strings = true)
    by (vm_compute; reflexivity).
  rewrite forallb_forall in R. specialize (R _ Hi). cbn [fst snd] in R. rewrite Hg in R. cbn [negb orb] in R.
  apply existsb_exists in R as [g [Hg' R]]. apply seqb_eq in R. exists g. split; assumption.
Qed.
Lemma dimension_plain : forall l it e r, read_dimension l it = Ok (Some e, r) -> In (fst e) l.
Proof.
  induction l as [|t l IH]; intros it e r; cbn [read_dimension].
  - destruct (read_item _ it) as [[x r']|]; cbn [bind]; discriminate.
  - destruct (read_item (it_spec t) it) as [[x r']|]; cbn [bind]; [|discriminate]. destruct x as [st|].
    + intros X. injection X as <- <-. left. reflexivity.
    + intros X. right. exact (IH _ _ _ X).
Qed.
Lemma read_entity_kind : forall f it e r, read_entity_fuel f it = Ok (Some e, r) -> gathers (kind_of e) = true -> exists g, In g gathering /\ In (item g) (clean it).
Proof.
  induction f as [|f IH]; intros it e r; cbn [read_entity_fuel]; [discriminate|]. destruct it as [|[p|x] it]; [discriminate| |discriminate].
  destruct (Z.eqb_spec (p_code p) 0) as [Hc|]; [|discriminate]. unfold assert_string. destruct (p_value p) as [| | | | |s|] eqn:Hv; try discriminate. cbn [bind].
  destruct (seqb s (str "ENDSEC") || seqb s (str "ENDBLK")); [discriminate|].
  assert (Hcons : forall r', suffix r' it -> (exists g, In g gathering /\ In (item g) (clean r')) -> exists g, In g gathering /\ In (item g) (clean (Ok p :: it))).
  { intros r' S [g [H1 H2]]. exists g. split; [exact H1|]. cbn [clean]. right. exact (clean_suffix _ _ _ S H2). }
  assert (Hrest : forall t, arms_okb (sp_arms (it_spec t)) = true -> forall o r', read_item (it_spec t) it = Ok (o, r') -> suffix r' it).
  { intros t Ht o r' H. pose proof (item_rests anyE any_ok (it_spec t) it Ht (any_fine it)) as S. rewrite H in S. exact S. }
  destruct (seqb s (str "DIMENSION")).
  - pose proof (dimension_rests anyE any_ok it (any_fine it)) as S. destruct (read_dimension dimensions it) as [[[e'|] r']|x] eqn:D; cbn [bind]; [| |discriminate].
    + intros X Hg. injection X as <- <-. apply dimension_plain in D. exfalso.
      assert (R : forallb (fun t => negb (gathers (sp_name (it_spec t)))) dimensions = true) by (vm_compute; reflexivity).
      rewrite forallb_forall in R. specialize (R _ D). unfold kind_of in Hg. rewrite Hg in R. discriminate R.
    + intros X Hg. apply (Hcons r'); [|exact (IH _ _ _ X Hg)]. exact S.
  - destruct (from_type_string s) as [t|] eqn:Ft.
    + assert (Hi : In (s, t) type_strings) by (apply assoc_In in Ft; exact Ft).
      destruct (read_item (it_spec t) it) as [[[st|] r']|x] eqn:I; cbn [bind]; [| |discriminate].
      * intros X Hg. injection X as <- <-. destruct (type_strings_gather s t Hi Hg) as [g [Hg1 ->]]. exists g. split; [exact Hg1|]. left.
        destruct p as [c v]. cbn in Hc, Hv. subst. reflexivity.
      * intros X Hg. apply (Hcons r'); [|exact (IH _ _ _ X Hg)]. refine (Hrest t _ _ _ I).
        assert (R : forallb (fun x : rstring * itype => arms_okb (sp_arms (it_spec (snd x)))) type_strings = true) by (vm_compute; reflexivity).
        rewrite forallb_forall in R. exact (R _ Hi).
    + pose proof (skip_rests anyE any_ok it) as S. destruct (skip_item it) as [r'|x]; cbn [bind rests] in *; [|discriminate].
      intros X Hg. apply (Hcons r'); [exact S|exact (IH _ _ _ X Hg)].
Qed.
Lemma collect_bare : forall f it l r, reports it -> clean_of (map item gathering) it -> collect_fuel f (None, it) = Ok (l, r) -> bare r it.
Proof.
  induction f as [|f IH]; intros it l r Hr Hf; cbn [collect_fuel]; [discriminate|]. unfold pnext. cbn [fst snd].
  destruct (entity_next it) as [[o r1]|e] eqn:N; cbn [bind]; [|discriminate]. apply entity_next_bare in N; [|exact Hr]. destruct o as [e|]; cbn [snd].
  - destruct N as [[N S]|[N _]]; [|discriminate N].
    assert (Hg : gathers (kind_of e) = false).
    { destruct (gathers (kind_of e)) eqn:Hg; [|reflexivity]. destruct (read_entity_kind _ _ _ _ N Hg) as [g [H1 H2]]. exfalso. exact (Hf _ (in_map item _ _ H1) H2). }
    unfold gathers in Hg. apply orb_false_elim in Hg as [Hg H3]. apply orb_false_elim in Hg as [H1 H2]. unfold is_kind. rewrite H1, H2, H3. cbn [andb bind].
    destruct (collect_fuel f (None, r1)) as [[l' r']|e'] eqn:C; cbn [bind]; [|discriminate]. intros X. injection X as _ <-. eapply bare_suffix; [exact S|].
    eapply IH; [| |exact C]; [exact (reports_tail _ _ (suffix_tail _ _ S) Hr)|]. exact (clean_of_suffix _ _ _ S Hf).
  - intros X. injection X as _ <-. destruct N as [[_ S]|[_ B]]; [left; exact S|exact B].
Qed.

(** * Objects *)

Lemma in_calm it : free_of [item "SECTIONSETTINGS"; item "BLOCK"] it -> calm inE it.
Proof. intros H. split; [right; exact H|left; discriminate]. Qed.
Lemma objects_bare : forall f d it d' r, reports it -> clean_of [item "SECTIONSETTINGS"; item "BLOCK"] it -> read_objects_fuel f d it = Ok (d', r) -> bare r it.
Proof.
  induction f as [|f IH]; intros d it d' r Hr Hf; cbn [read_objects_fuel]; [discriminate|].
  destruct (swallow read_object it) as [[o r1]|e] eqn:N; cbn [bind]; [|discriminate]. apply swallow_bare in N; [| | |exact Hr].
  - destruct o as [o|].
    + destruct N as [[_ S]|[N _]]; [|discriminate N]. intros X. eapply bare_suffix; [exact S|].
      eapply IH; [| |exact X]; [exact (reports_tail _ _ (suffix_tail _ _ S) Hr)|]. exact (clean_of_suffix _ _ _ S Hf).
    + intros X. injection X as _ <-. destruct N as [[_ S]|[_ B]]; [left; exact S|exact B].
  - intros x r' H. pose proof (read_object_rests anyE any_ok it (any_calm it)) as S. rewrite H in S. exact S.
  - intros u e Hu He H.
    assert (Hc : calm inE (map Ok u ++ [Err e; marker])).
    { apply in_calm. intros p Hp Hi. apply in_app_or in Hi as [Hi|[Hi|[Hi|[]]]]; [|discriminate Hi..]. apply in_map_iff in Hi as [q [Hq Hi]]. injection Hq as ->.
      exact (Hf p Hp (Hu p Hi)). }
    pose proof (read_object_rests inE inE_ok (map Ok u ++ [Err e; marker]) Hc) as S. rewrite H in S. cbn [rests] in S.
    destruct S as [S|S]; [exact (S eq_refl)|]. rewrite first_error_at in S. injection S as ->. exact (He eq_refl).
Qed.

(** * Sections *)

Lemma map_ok_split (body pre : list pair) e rest (x : res pair) r :
  map Ok body ++ Err e :: rest = map Ok pre ++ x :: r ->
  (exists p, x = Ok p /\ In p body) \/ (pre = body /\ x = Err e /\ r = rest) \/ (exists q, pre = body ++ q /\ q <> []).
Proof.
  revert pre. induction body as [|b body IH]; intros [|p pre]; cbn [map app]; intros H.
  - injection H as <- <-. right. left. auto.
  - discriminate H.
  - injection H as <- _. left. exists b. split; [reflexivity|left; reflexivity].
  - injection H as <- H. destruct (IH _ H) as [[q [H1 H2]]|[[-> [-> ->]]|[q [-> Hq]]]].
    + left. exists q. split; [exact H1|right; exact H2].
    + right. left. auto.
    + right. right. exists q. split; [reflexivity|exact Hq].
Qed.
Lemma map_ok_short (body q : list pair) e rest (r : feed) : map Ok body ++ Err e :: rest = map Ok (body ++ q) ++ r -> q <> [] -> False.
Proof. intros H Hq. rewrite map_app, <- app_assoc in H. apply app_inv_head in H. destruct q as [|x q]; [exact (Hq eq_refl)|discriminate H]. Qed.
Lemma expect_inv s it r : expect s it = Ok r -> it = Ok (item s) :: r.
Proof.
  destruct it as [|[p|e] it]; cbn [expect]; try discriminate. destruct (is_zero s p) eqn:Hz; [|discriminate]. intros X. injection X as <-.
  apply is_zero_eq in Hz. subst p. reflexivity.
Qed.
(** A section that ends with 0/ENDSEC, read from pairs without one up to a malformed pair. *)
Lemma bare_ends body e rest r : ~ In (item "ENDSEC") body -> bare (Ok (item "ENDSEC") :: r) (map Ok body ++ Err e :: rest) -> rest = Ok (item "ENDSEC") :: r.
Proof.
  intros Hn [[pre H]|[pre [e' H]]].
  - destruct (map_ok_split _ _ _ _ _ _ H) as [[p [Hp Hi]]|[[_ [Hx _]]|[q [-> Hq]]]].
    + injection Hp as <-. contradiction.
    + discriminate Hx.
    + exfalso. exact (map_ok_short _ _ _ _ _ H Hq).
  - destruct (map_ok_split _ _ _ _ _ _ H) as [[p [Hp _]]|[[_ [_ ->]]|[q [-> Hq]]]]; [discriminate Hp|reflexivity|].
    exfalso. exact (map_ok_short _ _ _ _ _ H Hq).
Qed.
Lemma suffix_ends body e rest r : ~ In (item "ENDSEC") body -> ~ suffix (Ok (item "ENDSEC") :: r) (map Ok body ++ Err e :: rest).
Proof.
  intros Hn [pre H]. destruct (map_ok_split _ _ _ _ _ _ H) as [[p [Hp Hi]]|[[_ [Hx _]]|[q [-> Hq]]]].
  - injection Hp as <-. contradiction.
  - discriminate Hx.
  - exact (map_ok_short _ _ _ _ _ H Hq).
Qed.
Lemma load_from_section sw env u d name it d' :
  load_from sw env u d (Ok (item "SECTION") :: Ok (mk_pair 2 (VStr name)) :: it) = Ok d' ->
  exists d1 u1 r, read_section sw env name u d it = Ok (d1, u1, Ok (item "ENDSEC") :: r).
Proof.
  unfold load_from, read_sections. cbn [length sections_with]. change (p_code (item "SECTION") =? 0) with true. cbn [assert_string item p_value bind].
  change (seqb (str "SECTION") (str "EOF")) with false. change (seqb (str "SECTION") (str "SECTION")) with true. cbn [p_code]. change (2 =? 2) with true. cbn [p_value].
  destruct (read_section sw env name u d it) as [[[d1 u1] r]|e]; cbn [bind fst snd]; [|discriminate].
  destruct (expect "ENDSEC" r) as [r3|e] eqn:X; cbn [bind]; [|discriminate]. intros _. apply expect_inv in X. subst r. exists d1, u1, r3. reflexivity.
Qed.
Lemma reports_body body it : reports it -> reports (map Ok body ++ it).
Proof. intros H e He. apply in_app_or in He as [He|He]; [|exact (H e He)]. apply in_map_iff in He as [p [He _]]. discriminate He. Qed.
Lemma clean_of_body l body e rest : (forall p, In p l -> ~ In p body) -> clean_of l (map Ok body ++ Err e :: rest).
Proof. intros H p Hp. rewrite clean_at. exact (H p Hp). Qed.
Lemma entities_reported sw env u d body e rest d' : reports (Err e :: rest) -> (forall p, In p (map item gathering) -> ~ In p body) -> ~ In (item "ENDSEC") body ->
  load_from sw env u d (Ok (item "SECTION") :: Ok (mk_pair 2 (VStr (str "ENTITIES"))) :: map Ok body ++ Err e :: rest) = Ok d' ->
  exists r, rest = Ok (item "ENDSEC") :: r.
Proof.
  intros Hr Hf Hn H. apply load_from_section in H as (d1 & u1 & r & H). exists r. apply (bare_ends body e rest r Hn).
  unfold read_section in H. change (seqb (str "ENTITIES") (str "HEADER")) with false in H. change (seqb (str "ENTITIES") (str "CLASSES")) with false in H.
  change (seqb (str "ENTITIES") (str "TABLES")) with false in H. change (seqb (str "ENTITIES") (str "BLOCKS")) with false in H.
  change (seqb (str "ENTITIES") (str "ENTITIES")) with true in H. cbv iota in H. unfold read_entities, collect in H.
  destruct (collect_fuel _ _) as [[l r']|x] eqn:C; cbn [bind] in H; [|discriminate H]. injection H as _ _ ->.
  eapply collect_bare; [| |exact C]; [apply reports_body, Hr|apply clean_of_body, Hf].
Qed.
Lemma objects_reported sw env u d body e rest d' : reports (Err e :: rest) -> (forall p, In p [item "SECTIONSETTINGS"; item "BLOCK"] -> ~ In p body) -> ~ In (item "ENDSEC") body ->
  load_from sw env u d (Ok (item "SECTION") :: Ok (mk_pair 2 (VStr (str "OBJECTS"))) :: map Ok body ++ Err e :: rest) = Ok d' ->
  exists r, rest = Ok (item "ENDSEC") :: r.
Proof.
  intros Hr Hf Hn H. apply load_from_section in H as (d1 & u1 & r & H). exists r. apply (bare_ends body e rest r Hn).
  unfold read_section in H. change (seqb (str "OBJECTS") (str "HEADER")) with false in H. change (seqb (str "OBJECTS") (str "CLASSES")) with false in H.
  change (seqb (str "OBJECTS") (str "TABLES")) with false in H. change (seqb (str "OBJECTS") (str "BLOCKS")) with false in H.
  change (seqb (str "OBJECTS") (str "ENTITIES")) with false in H. change (seqb (str "OBJECTS") (str "OBJECTS")) with true in H. cbv iota in H. unfold read_objects in H.
  destruct (read_objects_fuel _ _ _) as [[l r']|x] eqn:C; cbn [bind] in H; [|discriminate H]. injection H as _ _ ->.
  eapply objects_bare; [| |exact C]; [apply reports_body, Hr|apply clean_of_body, Hf].
Qed.
(** In the other sections nothing is lost. *)
Lemma section_item_suffix typ cb : (forall d it d' r, cb d it = Ok (d', r) -> suffix r it) ->
  forall f d it d' r, read_section_item f typ cb d it = Ok (d', r) -> suffix r it.
Proof.
  intros Hcb. induction f as [|f IH]; intros d it d' r; cbn [read_section_item]; [discriminate|]. destruct it as [|[p|x] it]; [discriminate| |discriminate].
  destruct (p_code p =? 0); [|discriminate]. destruct (assert_string p) as [s|x]; cbn [bind]; [|discriminate].
  destruct (seqb s (str "ENDSEC")); [intros X; injection X as _ <-; apply suffix_refl|]. destruct (seqb s (str typ)); [|discriminate].
  destruct (cb d it) as [[d1 r1]|x] eqn:C; cbn [bind]; [|discriminate]. intros X. apply IH in X. apply suffix_cons. eapply suffix_trans; [exact X|exact (Hcb _ _ _ _ C)].
Qed.
Lemma others_reported sw env u d name body e rest d' : ~ In name (map str ["BLOCKS"; "ENTITIES"; "OBJECTS"]) -> (name = str "HEADER" -> u = true) ->
  ~ In (item "ENDSEC") body ->
  load_from sw env u d (Ok (item "SECTION") :: Ok (mk_pair 2 (VStr name)) :: map Ok body ++ Err e :: rest) <> Ok d'.
Proof.
  intros Hx Hu Hn H. apply load_from_section in H as (d1 & u1 & r & H). apply (suffix_ends body e rest r Hn). revert H. set (it := map Ok body ++ Err e :: rest).
  unfold read_section. destruct (seqb name (str "HEADER")) eqn:Q.
  { apply seqb_eq in Q. rewrite (Hu Q). unfold read_header. pose proof (header_none_rests anyE any_ok it None (header_default header_spec env) Logic.I (any_calm it)) as R.
    destruct (header_loop _ None None _ it) as [[h r']|x]; cbn [bind fst snd]; [|discriminate]. intros X. injection X as _ _ ->. exact R. }
  clear Q. destruct (seqb name (str "CLASSES")).
  { unfold read_classes. match goal with |- context [read_classes_fuel ?f ?v it] => pose proof (classes_rests anyE any_ok v f it ltac:(lia) (any_fine it)) as R;
      destruct (read_classes_fuel f v it) as [[h r']|x] end; cbn [bind]; [|discriminate]. intros X. injection X as _ _ ->. exact R. }
  destruct (seqb name (str "TABLES")).
  { destruct (read_section_item _ _ _ _ _) as [[h r']|x] eqn:S; cbn [bind]; [|discriminate]. intros X. injection X as _ _ ->. revert S. apply section_item_suffix.
    intros d0 it0 d2 r2 T. pose proof (read_table_rests anyE any_ok d0 it0 (any_fine it0)) as R. rewrite T in R. exact R. }
  destruct (seqb name (str "BLOCKS")) eqn:Q; [apply seqb_eq in Q as ->; exfalso; apply Hx; left; reflexivity|].
  destruct (seqb name (str "ENTITIES")) eqn:Q1; [apply seqb_eq in Q1 as ->; exfalso; apply Hx; right; left; reflexivity|].
  destruct (seqb name (str "OBJECTS")) eqn:Q2; [apply seqb_eq in Q2 as ->; exfalso; apply Hx; right; right; left; reflexivity|].
  destruct (seqb name (str "THUMBNAILIMAGE")).
  { pose proof (thumbnail_rests anyE any_ok it Logic.I) as R. destruct (read_thumbnail it) as [[t r']|x]; cbn [bind]; [|discriminate]. intros X. injection X as _ _ ->. exact R. }
  pose proof (swallow_section_rests anyE any_ok it) as R. destruct (swallow_section it) as [r'|x]; cbn [bind rests] in *; [|discriminate].
  intros X. injection X as _ _ ->. exact R.
Qed.
(** * Blocks *)

Lemma run_stops arms eof : forall f it st regs x r, run arms eof f it st regs = Ok (x, r) -> r = [] \/ exists p r', r = Ok p :: r' /\ p_code p = 0.
Proof.
  induction f as [|f IH]; intros it st regs x r; cbn [run]; [discriminate|]. destruct it as [|[p|e] it]; [| |discriminate].
  - destruct eof; [|discriminate]. intros X. injection X as _ <-. left. reflexivity.
  - destruct (Z.eqb_spec (p_code p) 0) as [Hc|].
    + intros X. injection X as _ <-. right. exists p, it. split; [reflexivity|exact Hc].
    + destruct (step arms p st regs it) as [[y r']|e]; cbn [bind]; [|discriminate]. apply IH.
Qed.
Lemma block_head_fails d head e rest x : (forall p, In p head -> p_code p <> 0) -> read_block d (map Ok head ++ Err e :: rest) <> Ok x.
Proof.
  intros Hh. set (it := map Ok head ++ Err e :: rest). unfold read_block. cbn [read_block_fuel].
  pose proof (run_rests anyE any_ok (fine anyE) (sp_arms (it_spec block_head)) false ltac:(apply arms_okb_ok; [exact any_ok|reflexivity]) (S (length it)) it (default_of (it_spec block_head)) [] (any_fine it) ltac:(lia)) as R.
  destruct (run _ _ _ it _ _) as [[y r]|e'] eqn:Q; cbn [bind]; [|discriminate]. apply run_stops in Q as [->|[p [r' [-> Hp]]]]; [discriminate|]. exfalso.
  destruct R as [pre R]. destruct (map_ok_split _ _ _ _ _ _ R) as [[q [Hq Hi]]|[[_ [Hx _]]|[q [-> Hq]]]].
  - injection Hq as <-. exact (Hh p Hi Hp).
  - discriminate Hx.
  - exact (map_ok_short _ _ _ _ _ R Hq).
Qed.
Lemma blocks_fail head e rest : (forall p, In p head -> p_code p <> 0) -> forall bs f d x,
  (forall b, In b bs -> forall d, exists d', forall rest, read_block d (map Ok b ++ Ok (item "BLOCK") :: rest) = Ok (d', Ok (item "BLOCK") :: rest)) ->
  read_section_item f "BLOCK" read_block d (map Ok (flat_map (cons (item "BLOCK")) bs) ++ Ok (item "BLOCK") :: map Ok head ++ Err e :: rest) <> Ok x.
Proof.
  intros Hh. assert (Z : forall f d it x, read_section_item (S f) "BLOCK" read_block d (Ok (item "BLOCK") :: it) = Ok x ->
    exists d' r, read_block d it = Ok (d', r) /\ read_section_item f "BLOCK" read_block d' r = Ok x).
  { intros f d it x. cbn [read_section_item]. change (p_code (item "BLOCK") =? 0) with true. cbn [assert_string item p_value bind].
    change (seqb (str "BLOCK") (str "ENDSEC")) with false. change (seqb (str "BLOCK") (str "BLOCK")) with true. cbv iota.
    destruct (read_block d it) as [[d' r]|]; cbn [bind]; [|discriminate]. intros H. exists d', r. split; [reflexivity|exact H]. }
  induction bs as [|b bs IH]; intros [|f] d x Hb; try (cbn [read_section_item]; discriminate).
  - cbn [flat_map map app]. intros H. apply Z in H as (d' & r & H & _). exact (block_head_fails _ _ _ _ _ Hh H).
  - cbn [flat_map map app]. intros H. apply Z in H as (d' & r & H & H2). rewrite map_app, <- app_assoc in H. destruct (Hb b (or_introl eq_refl) d) as [d2 Hb2].
    assert (N : exists r2, map Ok (flat_map (cons (item "BLOCK")) bs) ++ Ok (item "BLOCK") :: map Ok head ++ Err e :: rest = Ok (item "BLOCK") :: r2)
      by (destruct bs; eexists; reflexivity).
    destruct N as [r2 N]. rewrite N, Hb2 in H. injection H as <- <-. rewrite <- N in H2. revert H2. apply IH. intros b' Hb'. apply Hb. right. exact Hb'.
Qed.
Lemma blocks_reported sw env u d bs head e rest d' :
  (forall b, In b bs -> forall d, exists d', forall rest, read_block d (map Ok b ++ Ok (item "BLOCK") :: rest) = Ok (d', Ok (item "BLOCK") :: rest)) ->
  (forall p, In p head -> p_code p <> 0) ->
  load_from sw env u d (Ok (item "SECTION") :: Ok (mk_pair 2 (VStr (str "BLOCKS"))) :: map Ok (flat_map (cons (item "BLOCK")) bs) ++ Ok (item "BLOCK") :: map Ok head ++ Err e :: rest) <> Ok d'.
Proof.
  intros Hb Hh H. apply load_from_section in H as (d1 & u1 & r & H).
  unfold read_section in H. change (seqb (str "BLOCKS") (str "HEADER")) with false in H. change (seqb (str "BLOCKS") (str "CLASSES")) with false in H.
  change (seqb (str "BLOCKS") (str "TABLES")) with false in H. change (seqb (str "BLOCKS") (str "BLOCKS")) with true in H. cbv iota in H.
  destruct (read_section_item _ _ _ _ _) as [x|] eqn:Q; cbn [bind] in H; [|discriminate H]. exact (blocks_fail head e rest Hh _ _ _ _ Hb Q).
Qed.

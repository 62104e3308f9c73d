(** Skipping what a reader does not know. *)
From Verif Require Import Base F64Model CodePairModel CodePairProofs ReaderProofs VersionModel StreamModel ExtDataModel SpecModel SpecSpec TableData EntityData
  ObjectData SectionData HeaderModel HeaderData CustomModel ThumbnailModel DrawingModel FileModel SuffixProofs LoadSpec LoadProofs.
Open Scope string_scope.
Open Scope list_scope.
Open Scope Z_scope.
Set Default Goal Selector "!".

Definition anyE : dxf_error -> Prop := fun _ => True.
Lemma any_ok : forall e, genuine e -> anyE e.
Proof. intros; exact Logic.I. Qed.
Lemma any_good it : reports it -> good anyE it.
Proof.
  intros H. split; [split; left; exact Logic.I|]. intros e He. destruct (H e He). split; assumption.
Qed.
Lemma any_calm it : calm anyE it.
Proof. split; left; exact Logic.I. Qed.
Lemma any_fine it : all_pairs (fine anyE) it.
Proof. intros p _. left. exact Logic.I. Qed.
Lemma any_kept sw it l : redecodes sw l it -> kept_good anyE sw it.
Proof. intros H y Hy. destruct (H y Hy) as [H2 _]. apply any_good, H2. Qed.
Lemma reports_tail a b : tail_of a b -> reports b -> reports a.
Proof. intros T H e He. apply H. exact (tail_In _ _ _ T He). Qed.

(** A section leaves something good. *)
Lemma section_left sw env name u d it : (u = true \/ kept_good anyE sw it) -> good anyE it ->
  match read_section sw env name u d it with
  | Ok (d', u', r) => good anyE r /\ (u' = true \/ kept_good anyE sw r) /\ (u = true -> u' = true) /\ (negb u && u' = false -> (length r <= length it)%nat)
  | Err _ => True
  end.
Proof.
  intros Hsw Hg. pose proof (section_goes anyE any_ok sw env name u d it Hsw Hg (or_introl Logic.I)) as S.
  destruct (read_section sw env name u d it) as [[[d' u'] r]|e]; [|exact Logic.I]. destruct S as [Su S]. destruct S as [S|[Hu0 [Hu [y [Ty Sy]]]]].
  - split; [exact (good_tail _ _ _ S Hg)|]. split; [|split; [exact Su|intros _; apply tail_length, S]].
    destruct Hsw as [H|H]; [left; apply Su, H|right; exact (kept_tail _ _ _ _ S H)].
  - destruct Hsw as [H|H]; [rewrite Hu0 in H; discriminate H|]. split; [exact (good_tail _ _ _ Sy (H y Ty))|]. split; [left; exact Hu|]. split; [exact Su|].
    rewrite Hu0, Hu. discriminate.
Qed.
(** Running with more fuel than there is input makes no difference; after a switch there is no other. *)
Lemma sections_fuel sw env again again' : forall f f' u d it, (u = true \/ (kept_good anyE sw it /\ forall d r, good anyE r -> again d r = again' d r)) -> good anyE it ->
  (length it < f)%nat -> (length it < f')%nat -> sections_with sw env again f u d it = sections_with sw env again' f' u d it.
Proof.
  induction f as [|f IH]; intros f' u d it Hsw Hg Hf Hf'; [lia|]. destruct f' as [|f']; [lia|]. cbn [sections_with].
  destruct it as [|[p|e] it]; [reflexivity| |reflexivity]. destruct (p_code p =? 0); [|reflexivity]. destruct (assert_string p) as [s|e]; cbn [bind]; [|reflexivity].
  destruct (seqb s (str "EOF")); [reflexivity|]. destruct (seqb s (str "SECTION")); [|reflexivity]. destruct it as [|[q|e] it]; [reflexivity| |reflexivity].
  destruct (if p_code q =? 2 then _ else _) as [name|]; [|reflexivity].
  assert (T : tail_of it (Ok p :: Ok q :: it)) by (apply tail_cons, tail_cons, tail_refl).
  pose proof (good_tail _ _ _ T Hg) as Hg'. assert (Hsw' : u = true \/ kept_good anyE sw it) by (destruct Hsw as [H|[H _]]; [left; exact H|right; exact (kept_tail _ _ _ _ T H)]).
  pose proof (section_left sw env name u d it Hsw' Hg') as S.
  destruct (read_section sw env name u d it) as [[[d' u'] r]|e]; cbn [bind fst snd]; [|reflexivity]. destruct S as [R1 [R3 [Su R2]]].
  destruct (expect "ENDSEC" r) as [r3|e] eqn:Ex; cbn [bind]; [|reflexivity]. destruct (expect_tail anyE any_ok _ _ _ Ex) as [L T3]. cbn [length] in *.
  pose proof (good_tail _ _ _ T3 R1) as R4. destruct (negb u && u') eqn:Q.
  { destruct Hsw as [->|[_ H]]; [discriminate Q|exact (H _ _ R4)]. }
  specialize (R2 eq_refl). apply IH; [|exact R4|lia|lia]. destruct Hsw as [H|[_ H]]; [left; apply Su, H|]. destruct R3 as [H'|H']; [left; exact H'|right].
  split; [exact (kept_tail _ _ _ _ T3 H')|exact H].
Qed.
Lemma read_sections_fuel sw env f f' u d it : (u = true \/ kept_good anyE sw it) -> good anyE it -> (length it < f)%nat -> (length it < f')%nat ->
  read_sections sw env f u d it = read_sections sw env f' u d it.
Proof. intros [H|H] Hg Hf Hf'; apply sections_fuel; [left; exact H|exact Hg|exact Hf|exact Hf'|right; split; [exact H|reflexivity]|exact Hg|exact Hf|exact Hf']. Qed.
Lemma seqb_out s (l : list string) n : ~ In s (map str l) -> In n l -> seqb s (str n) = false.
Proof.
  intros H Hn. destruct (seqb s (str n)) eqn:Q; [|reflexivity]. exfalso. apply H. apply seqb_eq in Q as ->. apply in_map, Hn.
Qed.
Lemma swallow_section_skips body rest : no_stop ["ENDSEC"] body -> swallow_section (map Ok body ++ Ok (item "ENDSEC") :: rest) = Ok (Ok (item "ENDSEC") :: rest).
Proof.
  induction body as [|p body IH]; intros H; [reflexivity|]. cbn [map app swallow_section].
  assert (H' : no_stop ["ENDSEC"] body) by (intros q Hq; apply H; right; exact Hq).
  destruct (Z.eqb_spec (p_code p) 0) as [Hc|]; [|apply IH, H']. destruct (H p (or_introl eq_refl) Hc) as [s [Hv Hs]].
  unfold assert_string. rewrite Hv. cbn [bind]. rewrite (seqb_out s ["ENDSEC"] "ENDSEC" Hs (or_introl eq_refl)). apply IH, H'.
Qed.
Lemma expect_item s rest : expect s (Ok (item s) :: rest) = Ok rest.
Proof. cbn [expect]. rewrite (proj2 (is_zero_eq s (item s)) eq_refl). reflexivity. Qed.
Lemma unknown_section_skipped sw env u d name body rest : unknown_section name body -> reports rest -> (u = true \/ redecodes sw [] rest) ->
  load_from sw env u d (map Ok (section_of name body) ++ rest) = load_from sw env u d rest.
Proof.
  intros [Hn Hb] Hr Hsw. unfold load_from, section_of.
  replace (map Ok (item "SECTION" :: mk_pair 2 (VStr name) :: body ++ [item "ENDSEC"]) ++ rest)
    with (Ok (item "SECTION") :: Ok (mk_pair 2 (VStr name)) :: map Ok body ++ Ok (item "ENDSEC") :: rest)
    by (cbn [map app]; rewrite map_app, <- app_assoc; reflexivity).
  set (long := Ok (item "SECTION") :: _). assert (L : (length rest + 2 <= length long)%nat) by (subst long; cbn [length]; rewrite app_length; cbn [length]; lia).
  assert (E : read_sections sw env (S (length long)) u d long = read_sections sw env (S (length rest)) u d rest).
  { transitivity (read_sections sw env (length long) u d rest).
    2:{ apply read_sections_fuel; [|apply any_good, Hr|lia|lia]. destruct Hsw as [H|H]; [left; exact H|right]. exact (any_kept _ _ _ H). }
    generalize (length long). intros n. subst long. clear L. unfold read_sections. cbn [sections_with p_code item]. change (0 =? 0) with true. unfold assert_string. cbn [p_value item bind].
    change (seqb (str "SECTION") (str "EOF")) with false. change (seqb (str "SECTION") (str "SECTION")) with true. cbn [p_code]. change (2 =? 2) with true. cbn [p_value].
    assert (Q : forall n, In n section_names -> seqb name (str n) = false) by (intros m Hm; exact (seqb_out _ _ _ Hn Hm)).
    unfold read_section. rewrite !Q by (cbn; tauto). rewrite swallow_section_skips by exact Hb. cbn [bind fst snd]. rewrite expect_item. cbn [bind]. rewrite (andb_comm (negb u)), andb_negb_r. reflexivity. }
  rewrite E. reflexivity.
Qed.

(** * Tables *)
Definition read_tables (d : drawing) (it : feed) : res (drawing * feed) := read_section_item (S (length it)) "TABLE" read_table d it.
Lemma read_table_goes d it : reports it -> goes anyE it (read_table d it).
Proof. intros Hr. apply rests_goes; [exact any_ok|apply any_good, Hr|]. apply read_table_rests; [exact any_ok|apply any_fine]. Qed.
Lemma section_item_fuel typ cb : (forall d it, reports it -> goes anyE it (cb d it)) -> forall f f' d it, reports it -> (length it < f)%nat -> (length it < f')%nat ->
  read_section_item f typ cb d it = read_section_item f' typ cb d it.
Proof.
  intros Hcb. induction f as [|f IH]; intros f' d it Hr Hf Hf'; [lia|]. destruct f' as [|f']; [lia|]. cbn [read_section_item].
  destruct it as [|[p|e] it]; [reflexivity| |reflexivity]. destruct (p_code p =? 0); [|reflexivity]. destruct (assert_string p) as [s|e]; cbn [bind]; [|reflexivity].
  destruct (seqb s (str "ENDSEC")); [reflexivity|]. destruct (seqb s (str typ)); [|reflexivity].
  assert (Hr' : reports it) by (apply (reports_tail _ (Ok p :: it)); [apply tail_cons, tail_refl|exact Hr]).
  pose proof (Hcb d it Hr') as G. destruct (cb d it) as [[d' r]|e]; cbn [bind goes] in *; [|reflexivity]. cbn [length] in *. pose proof (tail_length _ _ G).
  apply IH; [exact (reports_tail _ _ G Hr')|lia|lia].
Qed.
Lemma swallow_table_skips body rest : no_stop ["ENDTAB"; "TABLE"; "ENDSEC"] body -> swallow_table (map Ok body ++ Ok (item "ENDTAB") :: rest) = Ok (Ok (item "ENDTAB") :: rest).
Proof.
  induction body as [|p body IH]; intros H; [reflexivity|]. cbn [map app swallow_table].
  assert (H' : no_stop ["ENDTAB"; "TABLE"; "ENDSEC"] body) by (intros q Hq; apply H; right; exact Hq).
  destruct (Z.eqb_spec (p_code p) 0) as [Hc|]; [|apply IH, H']. destruct (H p (or_introl eq_refl) Hc) as [s [Hv Hs]].
  unfold assert_string. rewrite Hv. cbn [bind].
  rewrite (seqb_out s _ "TABLE" Hs), (seqb_out s _ "ENDSEC" Hs), (seqb_out s _ "ENDTAB" Hs) by (cbn; tauto). apply IH, H'.
Qed.
Lemma unknown_table_name name : ~ In name (map str table_names) -> table_of_name name = None.
Proof.
  intros H. unfold table_of_name. destruct (find _ table_kinds) as [k|] eqn:F; [|reflexivity]. exfalso. apply find_some in F as [_ F]. apply seqb_eq in F as ->.
  apply H. destruct k; cbn; tauto.
Qed.
Lemma unknown_table_skipped d name body rest : unknown_table name body -> reports rest ->
  read_tables d (map Ok (table_of name body) ++ rest) = read_tables d rest.
Proof.
  intros [Hn Hb] Hr. unfold read_tables, table_of.
  replace (map Ok (item "TABLE" :: mk_pair 2 (VStr name) :: body ++ [item "ENDTAB"]) ++ rest)
    with (Ok (item "TABLE") :: Ok (mk_pair 2 (VStr name)) :: map Ok body ++ Ok (item "ENDTAB") :: rest)
    by (cbn [map app]; rewrite map_app, <- app_assoc; reflexivity).
  set (long := Ok (item "TABLE") :: _). assert (L : (length rest + 2 <= length long)%nat) by (subst long; cbn [length]; rewrite app_length; cbn [length]; lia).
  transitivity (read_section_item (length long) "TABLE" read_table d rest).
  2:{ apply section_item_fuel; [exact read_table_goes|exact Hr|lia|lia]. }
  generalize (length long). intros n. subst long. clear L. cbn [read_section_item p_code item]. change (0 =? 0) with true. unfold assert_string at 1. cbn [p_value item bind].
  change (seqb (str "TABLE") (str "ENDSEC")) with false. change (seqb (str "TABLE") (str "TABLE")) with true.
  unfold read_table at 1. cbn [p_code]. change (2 =? 2) with true. unfold assert_string at 1. cbn [p_value item bind]. rewrite unknown_table_name by exact Hn.
  rewrite swallow_table_skips by exact Hb. cbn [bind]. rewrite expect_item. reflexivity.
Qed.

(** * Entities and objects *)
Lemma skip_item_skips body rest : (forall p, In p body -> p_code p <> 0) -> next_item rest -> skip_item (map Ok body ++ rest) = Ok rest.
Proof.
  intros Hb [q [r [-> Hq]]]. induction body as [|p body IH]; cbn [map app skip_item]; [rewrite Hq; reflexivity|].
  rewrite (proj2 (Z.eqb_neq (p_code p) 0) (Hb p (or_introl eq_refl))). apply IH. intros p' Hp. apply Hb. right. exact Hp.
Qed.
Lemma entity_fuel : forall f f' it, (length it < f)%nat -> (length it < f')%nat -> read_entity_fuel f it = read_entity_fuel f' it.
Proof.
  induction f as [|f IH]; intros f' it Hf Hf'; [lia|]. destruct f' as [|f']; [lia|]. cbn [read_entity_fuel].
  destruct it as [|[p|e] it]; [reflexivity| |reflexivity]. destruct (p_code p =? 0); [|reflexivity]. destruct (assert_string p) as [s|e]; cbn [bind]; [|reflexivity].
  destruct (seqb s (str "ENDSEC") || seqb s (str "ENDBLK")); [reflexivity|]. cbn [length] in *. destruct (seqb s (str "DIMENSION")).
  - pose proof (dimension_rests anyE any_ok it (any_fine _)) as R. destruct (read_dimension dimensions it) as [[[x|] r]|e]; cbn [bind rests] in *; [reflexivity| |reflexivity].
    apply suffix_length in R. apply IH; lia.
  - destruct (from_type_string s) as [t|] eqn:Ft.
    + pose proof (item_rests anyE any_ok (it_spec t) it (type_okb _ _ Ft) (any_fine _)) as R.
      destruct (read_item (it_spec t) it) as [[[x|] r]|e]; cbn [bind rests] in *; [reflexivity| |reflexivity]. apply suffix_length in R. apply IH; lia.
    + pose proof (skip_rests anyE any_ok it) as R. destruct (skip_item it) as [r|e]; cbn [bind rests] in *; [|reflexivity]. apply suffix_length in R. apply IH; lia.
Qed.
Lemma object_fuel : forall f f' it, (length it < f)%nat -> (length it < f')%nat -> read_object_fuel f it = read_object_fuel f' it.
Proof.
  induction f as [|f IH]; intros f' it Hf Hf'; [lia|]. destruct f' as [|f']; [lia|]. cbn [read_object_fuel].
  destruct it as [|[p|e] it]; [reflexivity| |reflexivity]. destruct (p_code p =? 0); [|reflexivity]. destruct (assert_string p) as [s|e]; cbn [bind]; [|reflexivity].
  destruct (seqb s (str "ENDSEC") || seqb s (str "ENDBLK")); [reflexivity|]. cbn [length] in *. destruct (assoc_str s object_readers); [reflexivity|].
  pose proof (skip_rests anyE any_ok it) as R. destruct (skip_item it) as [r|e]; cbn [bind rests] in *; [|reflexivity]. apply suffix_length in R. apply IH; lia.
Qed.
Lemma assoc_none {A} s (l : list (rstring * A)) : existsb (seqb s) (map fst l) = false -> assoc_str s l = None.
Proof.
  induction l as [|[t x] l IH]; cbn [map fst existsb assoc_str]; [reflexivity|]. intros H. apply orb_false_elim in H as [H1 H2]. rewrite H1. apply IH, H2.
Qed.
(** The names listed in LoadSpec.v are all. *)
Lemma names_out (known : list rstring) (names : list string) s : forallb (fun n => existsb (seqb n) (map str names)) known = true ->
  ~ In s (map str names) -> existsb (seqb s) known = false.
Proof.
  intros H Hs. destruct (existsb (seqb s) known) eqn:Q; [|reflexivity]. exfalso. apply existsb_exists in Q as [n [Hn Q]]. apply seqb_eq in Q as <-.
  rewrite forallb_forall in H. specialize (H s Hn). apply existsb_exists in H as [m [Hm H]]. apply seqb_eq in H as ->. exact (Hs Hm).
Qed.
Lemma unknown_entity_skipped ps rest : unknown_item entity_names ps -> next_item rest -> read_entity (map Ok ps ++ rest) = read_entity rest.
Proof.
  intros [s [body [-> [Hs Hb]]]] Hn. unfold read_entity. cbn [map app]. set (n := S (length _)). assert (L : (length rest + 1 < n)%nat) by (subst n; cbn [length]; rewrite app_length; lia).
  destruct n as [|n]; [lia|]. rewrite (entity_fuel (S (length rest)) n rest) by lia. cbn [read_entity_fuel p_code p_value]. change (0 =? 0) with true. unfold assert_string. cbn [p_value item bind].
  rewrite (seqb_out s _ "ENDSEC" Hs), (seqb_out s _ "ENDBLK" Hs), (seqb_out s _ "DIMENSION" Hs) by (cbn; tauto). cbn [orb].
  assert (F : from_type_string s = None).
  { unfold from_type_string. apply assoc_none. apply (names_out _ entity_names); [vm_compute; reflexivity|]. intros H. apply Hs. right. right. exact H. }
  rewrite F, skip_item_skips by assumption. reflexivity.
Qed.
Lemma unknown_object_skipped ps rest : unknown_item object_names ps -> next_item rest -> read_object (map Ok ps ++ rest) = read_object rest.
Proof.
  intros [s [body [-> [Hs Hb]]]] Hn. unfold read_object. cbn [map app]. set (n := S (length _)). assert (L : (length rest + 1 < n)%nat) by (subst n; cbn [length]; rewrite app_length; lia).
  destruct n as [|n]; [lia|]. rewrite (object_fuel (S (length rest)) n rest) by lia. cbn [read_object_fuel p_code p_value]. change (0 =? 0) with true. unfold assert_string. cbn [p_value item bind].
  rewrite (seqb_out s _ "ENDSEC" Hs), (seqb_out s _ "ENDBLK" Hs) by (cbn; tauto). cbn [orb].
  assert (F : assoc_str s object_readers = None).
  { apply assoc_none. apply (names_out _ object_names); [vm_compute; reflexivity|]. intros H. apply Hs. right. right. exact H. }
  rewrite F, skip_item_skips by assumption. reflexivity.
Qed.

Lemma items_next {A} (rd : feed -> res (option A * feed)) names l l' rest : items rd names l l' -> next_item rest ->
  next_item (map Ok l ++ rest) /\ next_item (map Ok l' ++ rest).
Proof.
  induction 1 as [|ps l l' Hu Hi IH|ps x l l' [p [r [-> Hp]]] Hd Hi IH]; intros Hr; [split; exact Hr| |].
  - destruct (IH Hr) as [_ H]. split; [|exact H]. destruct Hu as [s [body [-> _]]]. cbn [app map]. eexists. eexists. split; reflexivity.
  - cbn [app map]. split; eexists; eexists; (split; [reflexivity|exact Hp]).
Qed.
(** Where a failing reader stops does not depend on unknown items before. *)
Lemma stop_skips {A} (rd : feed -> res (A * feed)) ps r :
  (forall r, next_item r -> rd (map Ok ps ++ r) = rd r) -> (forall u w, ps = u ++ w -> rd (map Ok u ++ [marker]) = Err OutOfFuel) -> next_item r ->
  stop_behind rd [] (map Ok ps ++ r) = stop_behind rd [] r.
Proof.
  intros H1 H2 Hr.
  assert (B : forall w u, ps = u ++ w -> stop_behind rd (rev (map Ok u)) (map Ok w ++ r) = stop_behind rd (rev (map Ok ps)) r).
  { induction w as [|p w IH]; intros u Hu.
    - cbn [map app]. rewrite app_nil_r in Hu. subst u. reflexivity.
    - cbn [map app stop_behind]. rewrite rev_involutive, (H2 u _ Hu). specialize (IH (u ++ [p])). rewrite map_app, rev_app_distr in IH. cbn [map rev app] in IH.
      apply IH. rewrite <- app_assoc. exact Hu. }
  rewrite (B ps [] eq_refl : stop_behind rd [] (map Ok ps ++ r) = _). destruct Hr as [p [r' [-> Hp]]]. cbn [stop_behind]. rewrite rev_involutive, (H2 ps [] (eq_sym (app_nil_r _))).
  cbn [rev app]. rewrite (H2 [] ps eq_refl : rd [marker] = _).
  assert (C : forall z seen, stop_behind rd ((seen ++ [Ok p]) ++ rev (map Ok ps)) z = stop_behind rd (seen ++ [Ok p]) z).
  { assert (X : forall seen, rd (rev ((seen ++ [Ok p]) ++ rev (map Ok ps)) ++ [marker]) = rd (rev (seen ++ [Ok p]) ++ [marker])).
    { intros seen. rewrite (rev_app_distr (seen ++ [Ok p])), rev_involutive, <- app_assoc, H1; [reflexivity|].
      rewrite rev_app_distr; cbn [rev app]; eexists; eexists; split; [reflexivity|exact Hp]. }
    induction z as [|x r1 IH]; intros seen; cbn [stop_behind]; rewrite X; [reflexivity|].
    specialize (IH (x :: seen)). cbn [app] in IH. rewrite IH. reflexivity. }
  apply (C r' []).
Qed.
Lemma swallow_skips {A} (rd : feed -> res (option A * feed)) ps r :
  (forall r, next_item r -> rd (map Ok ps ++ r) = rd r) -> (forall u w, ps = u ++ w -> rd (map Ok u ++ [marker]) = Err OutOfFuel) -> next_item r ->
  swallow rd (map Ok ps ++ r) = swallow rd r.
Proof. intros H1 H2 Hr. unfold swallow, after_error. rewrite (H1 r Hr), (stop_skips rd ps r H1 H2 Hr). reflexivity. Qed.
Lemma skip_asks body : (forall p, In p body -> p_code p <> 0) -> skip_item (map Ok body ++ [marker]) = Err OutOfFuel.
Proof.
  induction body as [|p body IH]; intros Hb; [reflexivity|]. cbn [map app skip_item]. rewrite (proj2 (Z.eqb_neq (p_code p) 0) (Hb p (or_introl eq_refl))).
  apply IH. intros q Hq. apply Hb. right. exact Hq.
Qed.
Lemma unknown_entity_asks ps : unknown_item entity_names ps -> forall u w, ps = u ++ w -> read_entity (map Ok u ++ [marker]) = Err OutOfFuel.
Proof.
  intros [s [body [-> [Hs Hb]]]] u w Hu. destruct u as [|q u]; [reflexivity|]. cbn [app] in Hu. injection Hu as <- ->.
  unfold read_entity. cbn [map app]. cbn [read_entity_fuel p_code p_value]. change (0 =? 0) with true. unfold assert_string. cbn [p_value bind].
  rewrite (seqb_out s _ "ENDSEC" Hs), (seqb_out s _ "ENDBLK" Hs), (seqb_out s _ "DIMENSION" Hs) by (cbn; tauto). cbn [orb].
  assert (F : from_type_string s = None).
  { unfold from_type_string. apply assoc_none. apply (names_out _ entity_names); [vm_compute; reflexivity|]. intros H. apply Hs. right. right. exact H. }
  rewrite F, skip_asks; [reflexivity|]. intros p Hp. apply Hb. apply in_or_app. left. exact Hp.
Qed.
Lemma unknown_object_asks ps : unknown_item object_names ps -> forall u w, ps = u ++ w -> read_object (map Ok u ++ [marker]) = Err OutOfFuel.
Proof.
  intros [s [body [-> [Hs Hb]]]] u w Hu. destruct u as [|q u]; [reflexivity|]. cbn [app] in Hu. injection Hu as <- ->.
  unfold read_object. cbn [map app]. cbn [read_object_fuel p_code p_value]. change (0 =? 0) with true. unfold assert_string. cbn [p_value bind].
  rewrite (seqb_out s _ "ENDSEC" Hs), (seqb_out s _ "ENDBLK" Hs) by (cbn; tauto). cbn [orb].
  assert (F : assoc_str s object_readers = None).
  { apply assoc_none. apply (names_out _ object_names); [vm_compute; reflexivity|]. intros H. apply Hs. right. right. exact H. }
  rewrite F, skip_asks; [reflexivity|]. intros p Hp. apply Hb. apply in_or_app. left. exact Hp.
Qed.
Lemma entity_next_skips ps r : unknown_item entity_names ps -> next_item r -> entity_next (map Ok ps ++ r) = entity_next r.
Proof. intros H Hr. apply swallow_skips; [|exact (unknown_entity_asks ps H)|exact Hr]. intros r' Hr'. apply unknown_entity_skipped; assumption. Qed.
Lemma object_next_skips ps r : unknown_item object_names ps -> next_item r -> swallow read_object (map Ok ps ++ r) = swallow read_object r.
Proof. intros H Hr. apply swallow_skips; [|exact (unknown_object_asks ps H)|exact Hr]. intros r' Hr'. apply unknown_object_skipped; assumption. Qed.

(** One step of the iterator. *)
Lemma items_step {A} (rd : feed -> res (option A * feed)) names rest : next_item rest ->
  (forall ps r, unknown_item names ps -> next_item r -> swallow rd (map Ok ps ++ r) = swallow rd r) ->
  forall l l', items rd names l l' ->
  swallow rd (map Ok l ++ rest) = swallow rd (map Ok l' ++ rest) \/
  exists x m m', swallow rd (map Ok l ++ rest) = Ok (Some x, map Ok m ++ rest) /\ swallow rd (map Ok l' ++ rest) = Ok (Some x, map Ok m' ++ rest) /\ items rd names m m'.
Proof.
  intros Hr Hu. induction 1 as [|ps l l' H Hi IH|ps x l l' _ H Hi _]; [left; reflexivity| |].
  - destruct (items_next _ _ _ _ _ Hi Hr) as [N _]. rewrite map_app, <- app_assoc, (Hu ps _ H N). exact IH.
  - right. destruct (items_next _ _ _ _ _ Hi Hr) as [N N']. exists x, l, l'. unfold swallow. rewrite !map_app, <- !app_assoc, (H _ N), (H _ N'). auto.
Qed.

(** The states of two entity iterators, one with the unknown items and one without. *)
Inductive related (rest : feed) : ents -> ents -> Prop :=
| rel_same s : reports (snd s) -> related rest s s
| rel_items o l l' : items read_entity entity_names l l' -> related rest (o, map Ok l ++ rest) (o, map Ok l' ++ rest).
Lemma reports_app l rest : reports rest -> reports (map Ok l ++ rest).
Proof. intros H e He. apply H. apply in_app_or in He as [He|He]; [|exact He]. apply in_map_iff in He as [p [Hp _]]. discriminate Hp. Qed.
Section Bisimulation.
  Variable rest : feed.
  Hypothesis Hnext : next_item rest.
  Hypothesis Hrep : reports rest.
  Notation rel := (related rest).
  Lemma rel_reports s s' : rel s s' -> reports (snd s) /\ reports (snd s').
  Proof. intros [x H|o l l' _]; cbn [snd]; [split; exact H|split; apply reports_app, Hrep]. Qed.
  Lemma rel_good s s' : rel s s' -> good anyE (snd s) /\ good anyE (snd s').
  Proof. intros H. destruct (rel_reports _ _ H). split; apply any_good; assumption. Qed.
  (** Two computations that do the same. *)
  Definition agree {A} (m m' : res (A * ents)) : Prop :=
    match m, m' with Ok (a, s), Ok (a', s') => a = a' /\ rel s s' | Err e, Err e' => e = e' | _, _ => False end.
  Lemma agree_bind {A B} (m m' : res (A * ents)) (k k' : A * ents -> res (B * ents)) :
    agree m m' -> (forall a s s', m = Ok (a, s) -> m' = Ok (a, s') -> rel s s' -> agree (k (a, s)) (k' (a, s'))) -> agree (bind m k) (bind m' k').
  Proof.
    intros H Hk. destruct m as [[a s]|e], m' as [[a' s']|e']; cbn [agree bind] in *; try contradiction; [|exact H]. destruct H as [<- H]. apply Hk; [reflexivity..|exact H].
  Qed.
  Lemma pnext_agree s s' : rel s s' -> agree (pnext s) (pnext s').
  Proof.
    intros R. destruct (rel_reports _ _ R) as [Ra Rb].
    assert (Same : forall x, reports (snd x) -> agree (pnext x) (pnext x)).
    { intros x Hx. destruct (pnext x) as [[a s2]|e] eqn:P; cbn [agree]; [|reflexivity]. split; [reflexivity|]. apply rel_same.
      pose proof (pnext_spec anyE any_ok x (any_good _ Hx)) as H. rewrite P in H. destruct H as [T _]. exact (reports_tail _ _ T Hx). }
    destruct R as [x Hx|o l l' Hi]; [apply Same, Hx|].
    destruct o as [e|]; [unfold pnext; cbn [fst snd]; split; [reflexivity|apply rel_items, Hi]|].
    destruct (items_step read_entity entity_names rest Hnext (fun ps r => entity_next_skips ps r) l l' Hi) as [H|[x [m [m' [H1 [H2 H3]]]]]].
    - replace (pnext (None, map Ok l ++ rest)) with (pnext (None, map Ok l' ++ rest)); [apply Same; exact Rb|]. unfold pnext, entity_next. cbn [fst snd]. rewrite H. reflexivity.
    - unfold pnext, entity_next. cbn [fst snd]. rewrite H1, H2. cbn [bind]. split; [reflexivity|]. apply rel_items, H3.
  Qed.
  Lemma back_agree e s s' : rel s s' -> rel (Some e, snd s) (Some e, snd s').
  Proof. intros [x Hx|o l l' Hi]; cbn [snd]; [apply rel_same; exact Hx|apply rel_items, Hi]. Qed.
  Lemma agree_ok {A} (a : A) s s' : rel s s' -> agree (Ok (a, s)) (Ok (a, s')).
  Proof. intros H. split; [reflexivity|exact H]. Qed.
  Lemma seqend_agree {A} (a : A) s s' : rel s s' -> agree (let? x := swallow_seqend s in Ok (a, x)) (let? x := swallow_seqend s' in Ok (a, x)).
  Proof.
    intros R. unfold swallow_seqend. pose proof (pnext_agree _ _ R) as P. destruct (pnext s) as [[o s2]|e], (pnext s') as [[o' s2']|e']; cbn [agree bind] in *; try contradiction; [|exact P].
    destruct P as [<- P]. destruct o as [e|]; [|cbn [bind]; apply agree_ok, P]. destruct (is_kind "Seqend" e); cbn [bind]; apply agree_ok; [exact P|apply back_agree, P].
  Qed.
  Lemma mtext_agree s s' : rel s s' -> agree (take_mtext s) (take_mtext s').
  Proof.
    intros R. unfold take_mtext. apply agree_bind; [apply pnext_agree, R|]. intros [e|] s2 s2' _ _ P; [|apply agree_ok, P].
    destruct (is_kind "MText" e); apply agree_ok; [exact P|apply back_agree, P].
  Qed.
  Lemma children_agree n : forall f f' s s', rel s s' -> (weight s < f)%nat -> (weight s' < f')%nat -> agree (take_children n f s) (take_children n f' s').
  Proof.
    induction f as [|f IH]; intros f' s s' R Hf Hf'; [lia|]. destruct f' as [|f']; [lia|]. cbn [take_children]. destruct (rel_good _ _ R) as [G G'].
    apply agree_bind; [apply pnext_agree, R|]. intros [e|] s2 s2' P1 P2 R2; [|apply agree_ok, R2].
    pose proof (pnext_spec anyE any_ok s G) as S1. rewrite P1 in S1. destruct S1 as [_ [_ W1]]. pose proof (pnext_spec anyE any_ok s' G') as S2. rewrite P2 in S2. destruct S2 as [_ [_ W2]].
    destruct (is_kind n e); [|apply agree_ok, back_agree, R2]. apply agree_bind; [apply IH; [exact R2|lia|lia]|]. intros a s3 s3' _ _ R3. apply agree_ok, R3.
  Qed.
  (** What [collect] makes of one entity. *)
  Definition assemble (e : raw) (s : ents) : res (entity * ents) :=
    if has_mtext (kind_of e) then
      let? (m, s2) := take_mtext s in
      Ok (entity_of e [] (match m with Some m => m | None => default_mtext end), s2)
    else if is_kind "Insert" e && has_attributes e then
      let? (l, s2) := take_children "Attribute" (ents_fuel s) s in
      let? s3 := swallow_seqend s2 in
      Ok (entity_of e l default_mtext, s3)
    else if is_kind "Polyline" e then
      let? (l, s2) := take_children "Vertex" (ents_fuel s) s in
      let? s3 := swallow_seqend s2 in
      Ok (entity_of e l default_mtext, s3)
    else Ok (entity_of e [] default_mtext, s).
  Lemma collect_step f s : collect_fuel (S f) s =
    let? (o, s1) := pnext s in
    match o with
    | None => Ok ([], snd s1)
    | Some e => let? (x, s2) := assemble e s1 in let? (l, r) := collect_fuel f s2 in Ok (x :: l, r)
    end.
  Proof. reflexivity. Qed.
  Lemma assemble_shrinks e s : good anyE (snd s) -> shrinks anyE s (assemble e s).
  Proof.
    intros G. unfold assemble.
    assert (Hch : forall n, shrinks anyE s (let? (l, s3) := take_children n (ents_fuel s) s in let? s4 := swallow_seqend s3 in Ok (entity_of e l default_mtext, s4))).
    { intros n. apply shrinks_bind; [apply children_shrink; [exact any_ok|exact G|apply fuel_enough]|]. intros l0 s3 _ T _.
      pose proof (seqend_shrinks anyE any_ok s3 (good_tail _ _ _ T G)) as S. destruct (swallow_seqend s3); exact S. }
    destruct (has_mtext (kind_of e)); [apply shrinks_bind; [apply mtext_shrinks; [exact any_ok|exact G]|]; intros; apply shrinks_refl|].
    destruct (is_kind "Insert" e && has_attributes e); [apply Hch|]. destruct (is_kind "Polyline" e); [apply Hch|]. apply shrinks_refl.
  Qed.
  Lemma assemble_agree e s s' : rel s s' -> agree (assemble e s) (assemble e s').
  Proof.
    intros R. unfold assemble.
    assert (Hch : forall n, agree (let? (l, s3) := take_children n (ents_fuel s) s in let? s4 := swallow_seqend s3 in Ok (entity_of e l default_mtext, s4))
                                  (let? (l, s3) := take_children n (ents_fuel s') s' in let? s4 := swallow_seqend s3 in Ok (entity_of e l default_mtext, s4))).
    { intros n. apply agree_bind; [apply children_agree; [exact R|apply fuel_enough|apply fuel_enough]|]. intros l0 s3 s3' _ _ R3. apply seqend_agree, R3. }
    destruct (has_mtext (kind_of e)); [apply agree_bind; [apply mtext_agree, R|]; intros m s3 s3' _ _ R3; apply agree_ok, R3|].
    destruct (is_kind "Insert" e && has_attributes e); [apply Hch|]. destruct (is_kind "Polyline" e); [apply Hch|]. apply agree_ok, R.
  Qed.
  Lemma pnext_none s s' s2 s2' : rel s s' -> pnext s = Ok (None, s2) -> pnext s' = Ok (None, s2') -> s2 = s2'.
  Proof.
    intros [x Hx|o l l' Hi] H H'; [congruence|]. destruct o as [e|]; [discriminate H|]. unfold pnext, entity_next in H, H'. cbn [fst snd] in H, H'.
    destruct (items_step read_entity entity_names rest Hnext (fun ps r => entity_next_skips ps r) l l' Hi) as [E|[x [m [m' [E _]]]]]; rewrite E in H; [congruence|]. discriminate H.
  Qed.
  Lemma collect_agree : forall f f' s s', rel s s' -> (weight s < f)%nat -> (weight s' < f')%nat -> collect_fuel f s = collect_fuel f' s'.
  Proof.
    induction f as [|f IH]; intros f' s s' R Hf Hf'; [lia|]. destruct f' as [|f']; [lia|]. rewrite !collect_step. destruct (rel_good _ _ R) as [G G'].
    pose proof (pnext_agree _ _ R) as P. pose proof (pnext_none s s') as N. pose proof (pnext_spec anyE any_ok s G) as S1. pose proof (pnext_spec anyE any_ok s' G') as S2.
    destruct (pnext s) as [[o s2]|e], (pnext s') as [[o' s2']|e']; cbn [agree bind] in *; try contradiction; [|rewrite P; reflexivity].
    destruct P as [<- R2]. destruct S1 as [T1 [_ W1]], S2 as [T2 [_ W2]]. destruct o as [e|]; [|rewrite (N s2 s2' R eq_refl eq_refl); reflexivity].
    destruct (rel_good _ _ R2) as [G2 G2']. pose proof (assemble_shrinks e s2 G2) as S1. pose proof (assemble_shrinks e s2' G2') as S2. pose proof (assemble_agree e _ _ R2) as Ag.
    destruct (assemble e s2) as [[x s3]|e1], (assemble e s2') as [[x' s3']|e1']; cbn [agree bind shrinks] in *; try contradiction; [|rewrite Ag; reflexivity].
    destruct Ag as [<- R3]. rewrite (IH f' s3 s3' R3); [reflexivity|lia|lia].
  Qed.
End Bisimulation.
Lemma entities_skip rest l l' d : next_item rest -> reports rest -> items read_entity entity_names l l' -> read_entities d (map Ok l ++ rest) = read_entities d (map Ok l' ++ rest).
Proof.
  intros Hn Hr Hi. unfold read_entities, collect. rewrite (collect_agree rest Hn Hr _ (S (length (map Ok l' ++ rest))) (None, map Ok l ++ rest) (None, map Ok l' ++ rest));
    [reflexivity|apply rel_items; exact Hi|unfold weight; cbn; lia|unfold weight; cbn; lia].
Qed.
Lemma objects_fuel : forall f f' d it, reports it -> (length it < f)%nat -> (length it < f')%nat -> read_objects_fuel f d it = read_objects_fuel f' d it.
Proof.
  induction f as [|f IH]; intros f' d it Hr Hf Hf'; [lia|]. destruct f' as [|f']; [lia|]. cbn [read_objects_fuel].
  assert (Hg : good anyE it) by (apply any_good; exact Hr).
  assert (S : goes anyE it (swallow read_object it) /\ takes it (swallow read_object it)).
  { apply swallow_spec; [exact any_ok|exact Hg|apply read_object_rests; [exact any_ok|apply Hg]|]. unfold read_object. eapply object_rests; [exact any_ok|lia|apply Hg]. }
  destruct S as [S1 S2]. destruct (swallow read_object it) as [[[o|] r]|e]; cbn [bind goes takes] in *; [|reflexivity..].
  apply IH; [exact (reports_tail _ _ S1 Hr)|lia|lia].
Qed.
Lemma objects_skip_fuel rest : next_item rest -> reports rest -> forall l l', items read_object object_names l l' -> forall f f' d,
  (length (map Ok l ++ rest) < f)%nat -> (length (map Ok l' ++ rest) < f')%nat -> read_objects_fuel f d (map Ok l ++ rest) = read_objects_fuel f' d (map Ok l' ++ rest).
Proof.
  intros Hn Hr l l' Hi. induction Hi as [|ps l l' H Hi IH|ps x l l' Hne H Hi IH]; intros f f' d Hf Hf'.
  - apply objects_fuel; assumption.
  - destruct (items_next _ _ _ _ _ Hi Hn) as [N _]. rewrite map_app, <- app_assoc in Hf |- *. rewrite <- (IH f f' d); [|rewrite app_length in Hf; lia|exact Hf'].
    destruct f as [|f]; [lia|]. cbn [read_objects_fuel]. rewrite (object_next_skips ps _ H N). reflexivity.
  - destruct (items_next _ _ _ _ _ Hi Hn) as [N N']. rewrite map_app, <- app_assoc in Hf, Hf' |- *. rewrite map_app, <- app_assoc. destruct f as [|f]; [lia|]. destruct f' as [|f']; [lia|].
    cbn [read_objects_fuel]. unfold swallow. rewrite (H _ N), (H _ N'). cbn [bind]. destruct Hne as [p [r [-> _]]]. cbn [map app length] in Hf, Hf'. rewrite app_length in Hf, Hf'. apply IH; lia.
Qed.
Lemma objects_skip rest l l' d : next_item rest -> reports rest -> items read_object object_names l l' -> read_objects d (map Ok l ++ rest) = read_objects d (map Ok l' ++ rest).
Proof. intros Hn Hr Hi. apply (objects_skip_fuel rest Hn Hr l l' Hi); lia. Qed.

(** * Blocks *)

(** A pair that starts no group of pairs is applied on its own. *)
Definition lone (c : Z) : Prop := c <> 0 /\ c <> 102 /\ c <> 1001.
Definition lone_arms (arms : list arm) : bool :=
  forallb (fun a => (a_code a =? 102) || (a_code a =? 1001) || forallb (fun x => match x with AExt _ | AXdata _ => false | _ => true end) (a_actions a)) arms.
Lemma acts_lone l p : forallb (fun x => match x with AExt _ | AXdata _ => false | _ => true end) l = true -> forall st regs it,
  acts l p st regs it = let? (x, _) := acts l p st regs [] in Ok (x, it).
Proof.
  induction l as [|a l IH]; intros H st regs it; [reflexivity|]. cbn [forallb] in H. apply andb_true_iff in H as [Ha Hl]. cbn [acts].
  assert (A : forall it, act a p st regs it = let? (x, _) := act a p st regs [] in Ok (x, it)).
  { intros it0. destruct a; cbn [act]; try discriminate Ha; try reflexivity;
      repeat (match goal with |- context [apply_r ?r ?p] => destruct (apply_r r p) | |- context [apply_mr ?r ?p] => destruct (apply_mr r p)
                | |- context [set_last ?a ?b ?c] => destruct (set_last a b c) | |- context [assert_string ?p] => destruct (assert_string p)
                | |- context [mark ?a ?b ?c] => destruct (mark a b c) end; cbn [bind]); reflexivity. }
  rewrite (A it). destruct (act a p st regs []) as [[x r]|e]; cbn [bind]; [|reflexivity]. rewrite (IH Hl), (IH Hl _ _ r). destruct (acts l p (fst x) (snd x) []) as [[y r2]|e]; reflexivity.
Qed.
Lemma step_lone arms p st regs it : lone_arms arms = true -> lone (p_code p) -> step arms p st regs it = let? (x, _) := step arms p st regs [] in Ok (x, it).
Proof.
  intros Ha [_ [H1 H2]]. unfold step. destruct (find_arm arms (p_code p) regs) as [l|] eqn:F; [|reflexivity]. apply acts_lone.
  clear -Ha F H1 H2. induction arms as [|a arms IH]; [discriminate F|]. cbn [find_arm] in F. cbn [lone_arms forallb] in Ha. apply andb_true_iff in Ha as [Ha Hr].
  destruct ((a_code a =? p_code p) && _) eqn:Q in F; [|exact (IH Hr F)]. injection F as <-. apply andb_true_iff in Q as [Q _]. apply Z.eqb_eq in Q.
  rewrite Q, (proj2 (Z.eqb_neq _ _) H1), (proj2 (Z.eqb_neq _ _) H2) in Ha. exact Ha.
Qed.
Lemma run_lone arms ps : lone_arms arms = true -> (forall p, In p ps -> lone (p_code p)) -> forall st regs,
  (exists x, forall f rest, run arms false (length ps + f) (map Ok ps ++ rest) st regs = run arms false f rest (fst x) (snd x)) \/
  (exists e, forall f rest, run arms false (length ps + S f) (map Ok ps ++ rest) st regs = Err e).
Proof.
  intros Ha. induction ps as [|p ps IH]; intros Hp st regs; [left; exists (st, regs); reflexivity|].
  pose proof (Hp p (or_introl eq_refl)) as Hl. specialize (IH (fun q Hq => Hp q (or_intror Hq))).
  assert (N : p_code p =? 0 = false) by (apply Z.eqb_neq, Hl).
  destruct (step arms p st regs []) as [[x r]|e] eqn:S.
  - destruct (IH (fst x) (snd x)) as [[y H]|[e H]].
    + left. exists y. intros f rest. cbn [length Nat.add map app run]. rewrite N, step_lone, S by assumption. cbn [bind]. apply H.
    + right. exists e. intros f rest. cbn [length Nat.add map app run]. rewrite N, step_lone, S by assumption. cbn [bind]. apply H.
  - right. exists e. intros f rest. cbn [length Nat.add map app run]. rewrite N, step_lone, S by assumption. reflexivity.
Qed.

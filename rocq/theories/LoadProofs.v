(** What the readers of a file leave of their input and how they can fail. *)
From Verif Require Import Base F64Model CodePairModel CodePairProofs ReaderProofs VersionModel ExtDataModel BitsModel DateModel SpecModel SpecSpec TableData
  EntityData ObjectData SectionData HeaderModel HeaderSpec HeaderData CustomModel ThumbnailModel DrawingModel FileModel SuffixProofs.
Open Scope string_scope.
Open Scope list_scope.
Open Scope Z_scope.
Set Default Goal Selector "!".

(** [r] is what is left of [it] after some items. *)
Definition tail_of (r it : feed) : Prop := exists pre, it = pre ++ r.
Lemma tail_refl it : tail_of it it.
Proof. exists []. reflexivity. Qed.
Lemma tail_cons x r it : tail_of r it -> tail_of r (x :: it).
Proof. intros [pre ->]. exists (x :: pre). reflexivity. Qed.
Lemma tail_trans a b c : tail_of a b -> tail_of b c -> tail_of a c.
Proof. intros [p ->] [q ->]. exists (q ++ p). apply app_assoc. Qed.
Lemma tail_length a b : tail_of a b -> (length a <= length b)%nat.
Proof. intros [p ->]. rewrite app_length. lia. Qed.
Lemma tail_In x a b : tail_of a b -> In x a -> In x b.
Proof. intros [p ->] H. apply in_or_app. right. exact H. Qed.
Lemma suffix_tail a b : suffix a b -> tail_of a b.
Proof. intros [p ->]. eexists. reflexivity. Qed.

(** * What a layer's colour, dates, data tables, thumbnails, blocks and section settings must not do *)

Definition date_names : list string := ["$TDCREATE"; "$TDUCREATE"; "$TDUPDATE"; "$TDUUPDATE"].
Definition slow_pairs : list pair := [zero "SECTIONSETTINGS"; zero "BLOCK"].
Definition wild_pairs : list pair :=
  [zero "DATATABLE"; zero "SUNSTUDY"; name_pair "THUMBNAILIMAGE"; mk_pair 62 (VShort (-32768)); mk_pair 62 (VBool (-32768))] ++ map (fun n => mk_pair 9 (VStr (str n))) date_names.
Definition without (l : list pair) (it : feed) : Prop := forall p, In p l -> ~ In (Ok p) it.
Definition calm (E : dxf_error -> Prop) (it : feed) : Prop := (E OutOfFuel \/ without slow_pairs it) /\ (E Panic \/ without wild_pairs it).
Lemma calm_tail E a b : tail_of a b -> calm E b -> calm E a.
Proof.
  intros T [[H1|H1] [H2|H2]]; split; try (left; assumption); right; intros p Hp Ha;
    first [exact (H1 p Hp (tail_In _ _ _ T Ha))|exact (H2 p Hp (tail_In _ _ _ T Ha))].
Qed.

Section Ends.
  Variable E : dxf_error -> Prop.
  Hypothesis Eok : forall e, genuine e -> E e.
  Let gen := gen E Eok.
  Definition fine (p : pair) : Prop := E Panic \/ (p <> mk_pair 62 (VShort (-32768)) /\ p <> mk_pair 62 (VBool (-32768))).
  Notation ok := (all_pairs fine).
  Lemma calm_ok it : calm E it -> ok it.
  Proof. intros [_ [H|H]] p Hp; [left; exact H|right].
    split; intros ->; [apply (H (mk_pair 62 (VShort (-32768))))|apply (H (mk_pair 62 (VBool (-32768))))]; try exact Hp; cbn; tauto.
  Qed.
  Lemma ok_suffix a b : suffix a b -> ok b -> ok a.
  Proof. apply all_suffix. Qed.

  (** * Specifications *)
  Definition arms_okb (arms : list arm) : bool :=
    forallb (fun a => forallb (fun x => match x with AMulti _ MLayerColor => a_code a =? 62 | _ => true end) (a_actions a)) arms.
  Lemma arms_okb_ok arms : arms_okb arms = true -> arms_ok E fine arms.
  Proof.
    intros H. apply Forall_forall. intros a Ha. apply Forall_forall. intros x Hx. unfold arms_okb in H. rewrite forallb_forall in H.
    specialize (H a Ha). rewrite forallb_forall in H. specialize (H x Hx). destruct x; cbn [action_ok]; try exact Logic.I.
    intros p e Hc Hf. destruct m; cbn [apply_mr].
    - apply Z.eqb_eq in H. unfold assert_i16. destruct (p_value p) eqn:Hv; cbn [bind]; intros X; try (injection X as <-; apply gen; discriminate).
      all: unfold read_color_value, i16_abs in X; destruct (Z.eqb_spec z (-32768)) as [->|]; cbn [bind] in X; [|discriminate X]; injection X as <-;
        (destruct Hf as [Hf|[Hf1 Hf2]]; [exact Hf|]); exfalso; destruct p as [c v]; cbn [p_code p_value] in *; rewrite H in Hc; subst c v; first [apply Hf1; reflexivity|apply Hf2; reflexivity].
    - unfold assert_i16. destruct (p_value p); cbn [bind]; intros X; try discriminate X; injection X as <-; apply gen; discriminate.
  Qed.
  Lemma item_rests sp it : arms_okb (sp_arms sp) = true -> ok it -> rests E it (read_item sp it).
  Proof. intros H Hq. apply read_item_rests with (Q := fine); [exact Eok|exact Hq|apply arms_okb_ok, H]. Qed.
  Lemma stepb_rests arms p st regs it : arms_okb arms = true -> fine p -> rests E it (step arms p st regs it).
  Proof. intros H Hq. apply step_rests with (Q := fine); [exact Eok|apply arms_okb_ok, H|exact Hq]. Qed.
  Lemma runb_rests arms eof it st : arms_okb arms = true -> ok it -> rests E it (run arms eof (S (length it)) it st []).
  Proof. intros H Hq. apply run_rests with (Q := fine); [exact Eok|apply arms_okb_ok, H|exact Hq|lia]. Qed.

  (** * Objects with readers of their own *)
  Let string_E := string_E E Eok.
  Let f64_E := f64_E E Eok.
  Let i16_E := i16_E E Eok.
  Let i32_E := i32_E E Eok.
  Let handle_E := handle_E E Eok.
  Lemma common_rests p st it : fine p -> rests E it (common_apply p st it).
  Proof.
    intros Hf. unfold common_apply. apply rests_bind; [apply stepb_rests; [reflexivity|exact Hf]|]. intros. apply suffix_refl.
  Qed.
  Ltac conv := first [apply string_E|apply f64_E|apply i16_E|apply i32_E|apply handle_E].
  Ltac plain := apply rests_plain; [conv|]; intros ? _; try apply suffix_refl.
  Ltac arms := repeat match goal with |- rests _ _ (if ?c then _ else _) => destruct c; [try (plain; fail)|] end.
  Lemma loop_rests {A} (body : pair -> A -> feed -> res (A * feed)) it a : (forall p a it, fine p -> ok it -> rests E it (body p a it)) -> ok it ->
    rests E it (next_loop body (S (length it)) it a).
  Proof. intros Hb Hq. apply next_loop_rests with (Q := fine); [exact Hb|exact Hq|lia]. Qed.
  Lemma dict_rests it : ok it -> rests E it (read_dict it).
  Proof.
    intros Hq. unfold read_dict. apply rests_bind; [|intros; apply suffix_refl]. apply loop_rests; [|exact Hq].
    intros p [[st d] last] i Hf _. unfold dict_body. arms. apply rests_bind; [apply common_rests, Hf|]. intros. apply suffix_refl.
  Qed.
  Lemma dictd_rests it : ok it -> rests E it (read_dictd it).
  Proof.
    intros Hq. unfold read_dictd. apply rests_bind; [|intros; apply suffix_refl]. apply loop_rests; [|exact Hq].
    intros p [[st d] last] i Hf _. unfold dictd_body. arms. apply rests_bind; [apply common_rests, Hf|]. intros. apply suffix_refl.
  Qed.
  Lemma xrec_rests it : ok it -> rests E it (read_xrec it).
  Proof.
    intros Hq. unfold read_xrec. apply rests_bind; [|intros; apply suffix_refl]. apply loop_rests; [|exact Hq].
    intros p [[st x] data] i Hf _. unfold xrec_body. destruct data; [apply suffix_refl|]. destruct (p_code p =? 280); [plain|].
    destruct (find_arm ocommon_arms (p_code p) []); [|destruct (p_code p =? 100); [|destruct ((p_code p =? 5) || (p_code p =? 105))]; apply suffix_refl].
    apply rests_bind; [apply common_rests, Hf|]. intros. apply suffix_refl.
  Qed.
  Lemma spatial_rests it : ok it -> rests E it (read_spatial it).
  Proof. intros Hq. unfold read_spatial. apply rests_bind; [apply item_rests; [reflexivity|exact Hq]|]. intros. apply suffix_refl. Qed.
  Lemma cell_rests : forall it seen c, rests E it (cell_loop it seen c).
  Proof.
    induction it as [|[p|e] it IH]; intros seen c; cbn [cell_loop]; [apply suffix_refl| |right; reflexivity].
    destruct (p_code p =? 0); [apply suffix_cons, suffix_refl|]. destruct ((p_code p =? 7) && seen); [apply suffix_refl|].
    destruct (cell_arm (p_code p) cell_codes 0) as [[n cv]|]; [|apply suffix_refl]. apply rests_cons.
    apply rests_plain; [apply apply_r_E, Eok|]. intros x _. apply IH.
  Qed.
  Lemma tstyle_rests it : ok it -> rests E it (read_tstyle it).
  Proof.
    intros Hq. unfold read_tstyle. apply rests_bind; [|intros [[? ?] ?] r _ _; apply suffix_refl]. apply loop_rests; [|exact Hq].
    intros p [[st regs] cells] i Hf _. unfold tstyle_body. destruct (p_code p =? 7) eqn:C.
    - (* the first pair of the cell is the 7 pair itself *)
      cbn [cell_loop]. replace (p_code p =? 0) with false by (apply Z.eqb_eq in C; rewrite C; reflexivity). rewrite C. cbn [andb].
      apply Z.eqb_eq in C. rewrite C. change (cell_arm 7 cell_codes 0) with (Some (0%nat, RStr)).
      apply rests_bind; [|intros; apply suffix_refl]. apply rests_plain; [apply apply_r_E, Eok|]. intros x _. apply cell_rests.
    - apply rests_bind; [apply stepb_rests; [reflexivity|exact Hf]|]. intros. apply suffix_refl.
  Qed.
  Lemma as_datetime_E d e : E Panic -> as_datetime d = Err e -> E e.
  Proof.
    intros HP. unfold as_datetime. apply bind_E; [|intros a e' _; unfold chrono_add; destruct (a <=? max_date); intros X; [discriminate X|injection X as <-; exact HP]].
    intros e'. destruct (_ =? 0); [discriminate|]. apply bind_E; [|intros ? ? _ X; discriminate X]. intros e''. unfold f64_to_adjusted_duration.
    apply bind_E; [unfold checked_i64; intros ? X; destruct (is_i64 _); [discriminate X|injection X as <-; exact HP]|]. intros a ea _.
    apply bind_E; [unfold checked_i64; intros ? X; destruct (is_i64 _); [discriminate X|injection X as <-; exact HP]|]. intros b eb _.
    unfold chrono_seconds. intros X; destruct (_ <=? _); [discriminate X|injection X as <-; exact HP].
  Qed.
  Lemma dates_E : E Panic -> forall n l e, (length l <= n)%nat -> dates_of l = Err e -> E e.
  Proof.
    intros HP. induction n as [|n IH]; intros l e Hl; (destruct l as [|a [|b l]]; cbn [dates_of]; try discriminate); cbn [length] in Hl; [lia|].
    apply bind_E; [intros; eapply as_datetime_E; eassumption|]. intros d e1 _. apply bind_E.
    - unfold chrono_add. intros e2 X. destruct (_ <=? _); [discriminate X|injection X as <-; exact HP].
    - intros x e2 _. apply bind_E; [intros e3; apply IH; lia|]. intros ? ? _ X. discriminate X.
  Qed.
  Lemma sun_rests it : E Panic -> ok it -> rests E it (read_sun it).
  Proof.
    intros HP Hq. unfold read_sun. apply rests_bind; [apply item_rests; [reflexivity|exact Hq]|]. intros [st|] r _ _; [|apply suffix_refl].
    apply rests_plain; [|intros; apply suffix_refl]. unfold sun_finish. intros e. apply bind_E; [|intros ? ? _ X; discriminate X].
    intros e'. exact (dates_E HP _ _ _ (le_n _)).
  Qed.
  Lemma set_value_E row col x d e : E Panic -> dt_set_value row col x d = Err e -> E e.
  Proof.
    intros HP. unfold dt_set_value. destruct (_ && _); [|discriminate].
    repeat match goal with |- match ?m with _ => _ end = _ -> _ => destruct m end; intros X; try discriminate X; injection X as <-; exact HP.
  Qed.
  Lemma dtable_rests it : E Panic -> ok it -> rests E it (read_dtable it).
  Proof.
    intros HP Hq. unfold read_dtable. apply rests_bind; [|intros; apply suffix_refl]. apply loop_rests; [|exact Hq].
    intros p [[st d] l] i Hf _. unfold dtable_body. apply rests_bind.
    - unfold dtable_pair. cbv zeta.
      repeat match goal with |- rests _ _ (if ?c =? ?z then _ else _) => destruct (c =? z) end;
        try (plain; fail);
        try (plain; apply rests_plain; [intros ? ?; eapply set_value_E; eassumption|]; intros ? _; apply suffix_refl);
        try (plain; destruct (dl_p2 l) as [[? ?] ?]; first [apply suffix_refl|apply rests_plain; [intros ? ?; eapply set_value_E; eassumption|]; intros ? _; apply suffix_refl]);
        try (plain; destruct (dl_p3 l) as [[? ?] ?]; first [apply suffix_refl|apply rests_plain; [intros ? ?; eapply set_value_E; eassumption|]; intros ? _; apply suffix_refl]).
      all: repeat match goal with |- rests _ _ (if ?c then _ else _) => destruct c end.
      all: try (plain; apply rests_plain; [intros ? ?; eapply set_value_E; eassumption|]; intros ? _; apply suffix_refl).
      all: apply rests_bind; [apply common_rests, Hf|]; intros; apply suffix_refl.
    - intros [[st' d'] l'] r _ _. destruct (_ && _); [|apply suffix_refl]. apply rests_plain; [|intros; apply suffix_refl].
      unfold create_table. intros e. destruct (_ || _); intros X; [injection X as <-; exact HP|discriminate X].
  Qed.

  Lemma geo_rests : forall it g, rests E it (geo_loop it g).
  Proof.
    induction it as [|[p|e] it IH]; intros g; cbn [geo_loop]; [apply suffix_refl| |right; reflexivity].
    destruct (p_code p =? 3); [apply suffix_cons, suffix_refl|]. destruct (geo_pair p g) as [m|] eqn:G; [|apply suffix_refl]. apply rests_cons.
    apply rests_plain; [|intros x _; apply IH]. intros e ->. revert G. unfold geo_pair. destruct g.
    repeat match goal with |- (if ?c then _ else _) = _ -> _ => destruct c end; intros X; try discriminate X; injection X as X; revert X;
      (apply bind_E; [conv|intros ? ? _ Y; discriminate Y]).
  Qed.
  Lemma geo_all_rests : E OutOfFuel -> forall f it acc, rests E it (geo_all f it acc).
  Proof.
    intros HO. induction f as [|f IH]; intros it acc; cbn [geo_all]; [left; exact HO|].
    destruct it as [|[p|e] it]; [apply suffix_refl| |right; reflexivity]. destruct (p_code p =? 90); [|apply suffix_refl].
    apply rests_bind; [apply geo_rests|]. intros. apply IH.
  Qed.
  Lemma ts_rests : E OutOfFuel -> forall f it t, rests E it (ts_loop f it t).
  Proof.
    intros HO. induction f as [|f IH]; intros it t; cbn [ts_loop]; [left; exact HO|].
    destruct it as [|[p|e] it]; [apply suffix_refl| |right; reflexivity]. destruct t as [a b c d x g].
    destruct (p_code p =? 0); [apply suffix_refl|].
    repeat match goal with |- rests _ _ (if ?c then _ else _) => destruct c end; try apply suffix_refl; apply rests_cons; try apply IH;
      try (apply rests_plain; [conv|]; intros ? _; apply IH).
    apply rests_bind; [apply geo_all_rests, HO|]. intros. apply IH.
  Qed.
  Lemma ts_all_rests : E OutOfFuel -> forall f it acc, rests E it (ts_all f it acc).
  Proof.
    intros HO. induction f as [|f IH]; intros it acc; cbn [ts_all]; [left; exact HO|].
    destruct it as [|[p|e] it]; [apply suffix_refl| |right; reflexivity]. destruct (p_code p =? 0); [apply suffix_refl|].
    apply rests_bind; [apply ts_rests, HO|]. intros. apply IH.
  Qed.
  Lemma secs_rests it : E OutOfFuel -> ok it -> rests E it (read_secs it).
  Proof.
    intros HO Hq. unfold read_secs, read_secs_fuel. apply loop_rests; [|exact Hq]. intros p [st x] i Hf _. unfold secs_body.
    destruct (p_code p =? 1); [apply rests_bind; [apply ts_all_rests, HO|]; intros; apply suffix_refl|]. arms; try apply suffix_refl.
    all: apply rests_bind; [apply common_rests, Hf|]; intros; apply suffix_refl.
  Qed.

  (** * Items *)
  Lemma skip_rests : forall it, rests E it (let? r := skip_item it in Ok (tt, r)).
  Proof.
    induction it as [|[p|e] it IH]; cbn [skip_item]; [left; apply gen; discriminate| |right; reflexivity].
    destruct (p_code p =? 0); [apply suffix_refl|]. apply rests_cons, IH.
  Qed.
  Lemma plain_rests {B} (f : feed -> res feed) it (k : feed -> res (B * feed)) :
    rests E it (let? r := f it in Ok (tt, r)) -> (forall r, f it = Ok r -> suffix r it -> rests E r (k r)) -> rests E it (bind (f it) k).
  Proof.
    intros Hf Hk. destruct (f it) as [r|e]; cbn [bind] in *; [|exact Hf]. cbn [rests] in Hf. apply (rests_suffix E _ _ _ Hf). apply Hk; [reflexivity|exact Hf].
  Qed.
  Lemma dimension_rests it : ok it -> rests E it (read_dimension dimensions it).
  Proof.
    intros Hq. assert (Hl : forallb (fun t => arms_okb (sp_arms (it_spec t))) dimensions = true) by reflexivity.
    induction dimensions as [|t l IH]; cbn [read_dimension].
    - apply rests_bind; [apply item_rests; [reflexivity|exact Hq]|]. intros. apply suffix_refl.
    - cbn [forallb] in Hl. apply andb_prop in Hl as [Ht Hl]. pose proof (item_rests (it_spec t) it Ht Hq) as Hr.
      destruct (read_item (it_spec t) it) as [[[st|] r]|e]; [exact Hr|apply IH, Hl|exact Hr].
  Qed.
  Definition readers_ok : bool := forallb (fun x : rstring * itype => arms_okb (sp_arms (it_spec (snd x)))) type_strings.
  Lemma assoc_In {A} s (l : list (rstring * A)) x : assoc_str s l = Some x -> In (s, x) l.
  Proof.
    induction l as [|[t y] l IH]; cbn [assoc_str]; [discriminate|]. destruct (seqb s t) eqn:H; [|right; apply IH; assumption].
    apply seqb_eq in H as ->. intros X. injection X as ->. left. reflexivity.
  Qed.
  Lemma type_okb s t : from_type_string s = Some t -> arms_okb (sp_arms (it_spec t)) = true.
  Proof.
    intros H. apply assoc_In in H. assert (R : readers_ok = true) by (vm_compute; reflexivity). unfold readers_ok in R. rewrite forallb_forall in R.
    exact (R _ H).
  Qed.
  (** A reader of items that takes at least the 0 pair when it delivers something. *)
  Definition takes {A} (it : feed) (m : res (option A * feed)) : Prop :=
    match m with Ok (Some _, r) => (length r < length it)%nat | _ => True end.
  Lemma takes_more {A} a b (m : res (option A * feed)) : (length a <= length b)%nat -> takes a m -> takes b m.
  Proof. destruct m as [[[x|] r]|e]; cbn [takes]; intros; try exact Logic.I. lia. Qed.
  Lemma entity_rests : forall f it, (length it < f)%nat -> ok it -> rests E it (read_entity_fuel f it) /\ takes it (read_entity_fuel f it).
  Proof.
    induction f as [|f IH]; intros it Hl Hq; [lia|]. cbn [read_entity_fuel].
    destruct it as [|[p|e] it]; [split; [left; apply gen; discriminate|exact Logic.I]| |split; [right; reflexivity|exact Logic.I]].
    cbn [length] in Hl. assert (Hq' : ok it) by (intros q H; apply Hq; right; exact H).
    destruct (p_code p =? 0); [|split; [left; apply gen; discriminate|exact Logic.I]].
    destruct (assert_string p) as [s|e] eqn:Hs; cbn [bind]; [|split; [left; exact (string_E _ _ Hs)|exact Logic.I]].
    destruct (seqb s (str "ENDSEC") || seqb s (str "ENDBLK")); [split; [apply suffix_refl|exact Logic.I]|].
    assert (Hgo : forall r (x : option raw), suffix r it ->
      rests E r (match x with Some e => Ok (Some e, r) | None => read_entity_fuel f r end) /\
      takes (Ok p :: it) (match x with Some e => Ok (Some e, r) | None => read_entity_fuel f r end)).
    { intros r [x|] S; pose proof (suffix_length _ _ S) as SL.
      - split; [apply suffix_refl|]. cbn [takes length]. lia.
      - destruct (IH r) as [H1 H2]; [lia|exact (ok_suffix _ _ S Hq')|]. split; [exact H1|]. eapply takes_more; [|exact H2]. cbn [length]. lia. }
    destruct (seqb s (str "DIMENSION")).
    - pose proof (dimension_rests it Hq') as Hd. destruct (read_dimension dimensions it) as [[o r]|e] eqn:R; cbn [bind].
      + cbn [rests] in Hd. destruct (Hgo r o Hd) as [H1 H2]. split; [|exact H2]. apply rests_cons. exact (rests_suffix E _ _ _ Hd H1).
      + split; [|exact Logic.I]. apply rests_cons. exact Hd.
    - destruct (from_type_string s) as [t|] eqn:Ht.
      + pose proof (item_rests (it_spec t) it (type_okb _ _ Ht) Hq') as Hd. destruct (read_item (it_spec t) it) as [[o r]|e] eqn:R; cbn [bind].
        * cbn [rests] in Hd. destruct (Hgo r (option_map (fun st => (t, st)) o) Hd) as [H1 H2]. destruct o; cbn [option_map] in *; split;
            first [exact H2|apply rests_cons; exact (rests_suffix E _ _ _ Hd H1)].
        * split; [|exact Logic.I]. apply rests_cons. exact Hd.
      + pose proof (skip_rests it) as Hd. destruct (skip_item it) as [r|e] eqn:R; cbn [bind] in *.
        * cbn [rests] in Hd. destruct (Hgo r None Hd) as [H1 H2]. split; [|exact H2]. apply rests_cons. exact (rests_suffix E _ _ _ Hd H1).
        * split; [|exact Logic.I]. apply rests_cons. exact Hd.
  Qed.
  Lemma read_entity_rests it : ok it -> rests E it (read_entity it).
  Proof. intros Hq. unfold read_entity. apply entity_rests; [lia|exact Hq]. Qed.

  (** * Objects *)
  Lemma custom_of_rests {A} (f : A -> custom) it m : rests E it m -> rests E it (custom_of f m).
  Proof. intros H. unfold custom_of. apply rests_bind; [exact H|]. intros. apply suffix_refl. Qed.
  Lemma plain_of_rests t it m : rests E it m -> rests E it (plain_of t m).
  Proof. intros H. unfold plain_of. apply rests_bind; [exact H|]. intros. apply suffix_refl. Qed.
  Definition allowed (s : rstring) : Prop :=
    (E OutOfFuel \/ s <> str "SECTIONSETTINGS") /\ (E Panic \/ (s <> str "DATATABLE" /\ s <> str "SUNSTUDY")).
  Lemma reader_rests s rd it : assoc_str s object_readers = Some rd -> allowed s -> ok it -> rests E it (rd it).
  Proof.
    intros H [A1 A2] Hq. apply assoc_In in H. unfold object_readers in H. apply in_app_or in H as [H|H].
    - cbn [custom_readers In] in H. decompose [or] H; clear H; try contradiction;
        match goal with X : (_, _) = (s, rd) |- _ => injection X as <- <- end.
      + apply custom_of_rests, dict_rests, Hq.
      + apply custom_of_rests, dictd_rests, Hq.
      + apply custom_of_rests, dtable_rests; [|exact Hq]. destruct A2 as [A2|[A2 _]]; [exact A2|]. exfalso. apply A2. reflexivity.
      + apply custom_of_rests, xrec_rests, Hq.
      + apply custom_of_rests, secs_rests; [|exact Hq]. destruct A1 as [A1|A1]; [exact A1|]. exfalso. apply A1. reflexivity.
      + apply custom_of_rests, tstyle_rests, Hq.
      + apply plain_of_rests, spatial_rests, Hq.
      + apply plain_of_rests, sun_rests; [|exact Hq]. destruct A2 as [A2|[_ A2]]; [exact A2|]. exfalso. apply A2. reflexivity.
    - apply in_map_iff in H as [t [X Ht]]. injection X as <- <-. apply plain_of_rests, item_rests; [|exact Hq].
      assert (R : forallb (fun t => arms_okb (sp_arms (it_spec t))) objects = true) by (vm_compute; reflexivity).
      rewrite forallb_forall in R. exact (R t Ht).
  Qed.
  Lemma zero_pair p s : p_code p = 0 -> assert_string p = Ok s -> p = mk_pair 0 (VStr s).
  Proof. destruct p as [c v]. cbn. intros -> H. unfold assert_string in H. cbn in H. destruct v; try discriminate H. injection H as ->. reflexivity. Qed.
  Lemma calm_allowed p s it : calm E (Ok p :: it) -> p_code p = 0 -> assert_string p = Ok s -> allowed s.
  Proof.
    intros [C1 C2] Hc Hs. pose proof (zero_pair _ _ Hc Hs) as Hp. split.
    - destruct C1 as [C1|C1]; [left; exact C1|right; intros ->]. apply (C1 p); [left; symmetry; exact Hp|left; reflexivity].
    - destruct C2 as [C2|C2]; [left; exact C2|right; split; intros ->]; apply (C2 p); try (left; reflexivity); [left|right; left]; symmetry; exact Hp.
  Qed.
  Lemma calm_suffix a b : suffix a b -> calm E b -> calm E a.
  Proof. intros S. apply calm_tail, suffix_tail, S. Qed.
  Lemma calm_rest x it : calm E (x :: it) -> calm E it.
  Proof. apply calm_tail. exists [x]. reflexivity. Qed.
  Lemma object_rests : forall f it, (length it < f)%nat -> calm E it -> rests E it (read_object_fuel f it) /\ takes it (read_object_fuel f it).
  Proof.
    induction f as [|f IH]; intros it Hl Hq; [lia|]. cbn [read_object_fuel].
    destruct it as [|[p|e] it]; [split; [left; apply gen; discriminate|exact Logic.I]| |split; [right; reflexivity|exact Logic.I]].
    cbn [length] in Hl. pose proof (calm_rest _ _ Hq) as Hq'.
    destruct (p_code p =? 0) eqn:Hc; [apply Z.eqb_eq in Hc|split; [left; apply gen; discriminate|exact Logic.I]].
    destruct (assert_string p) as [s|e] eqn:Hs; cbn [bind]; [|split; [left; exact (string_E _ _ Hs)|exact Logic.I]].
    destruct (seqb s (str "ENDSEC") || seqb s (str "ENDBLK")); [split; [apply suffix_refl|exact Logic.I]|].
    destruct (assoc_str s object_readers) as [rd|] eqn:Ht.
    - pose proof (reader_rests s rd it Ht (calm_allowed _ _ _ Hq Hc Hs) (calm_ok _ Hq')) as Hd. destruct (rd it) as [[o r]|e]; cbn [bind].
      + split; [apply suffix_cons; exact Hd|]. cbn [takes length]. cbn [rests] in Hd. pose proof (suffix_length _ _ Hd). lia.
      + split; [apply rests_cons; exact Hd|exact Logic.I].
    - pose proof (skip_rests it) as Hd. destruct (skip_item it) as [r|e] eqn:R; cbn [bind] in *.
      + cbn [rests] in Hd. pose proof (suffix_length _ _ Hd) as SL. destruct (IH r) as [H1 H2]; [lia|exact (calm_suffix _ _ Hd Hq')|].
        split; [apply rests_cons; exact (rests_suffix E _ _ _ Hd H1)|]. eapply takes_more; [|exact H2]. cbn [length]. lia.
      + split; [|exact Logic.I]. apply rests_cons. exact Hd.
  Qed.
  Lemma read_object_rests it : calm E it -> rests E it (read_object it).
  Proof. intros Hq. unfold read_object. apply object_rests; [lia|exact Hq]. Qed.

  (** * Classes and tables *)
  Lemma created_some sp it x r : sp_created sp = [] -> read_item sp it = Ok (x, r) -> exists st, x = Some st.
  Proof.
    intros H. unfold read_item. destruct (run _ _ _ _ _ _) as [[[st regs] r']|e]; cbn [bind]; [|discriminate]. rewrite H. cbn [forallb].
    intros X. injection X as <- _. eexists. reflexivity.
  Qed.
  Lemma class_rests v s it : ok it -> rests E it (read_class v s it).
  Proof.
    intros Hq. unfold read_class. assert (H : arms_okb (sp_arms (it_spec (class_type v))) = true) by (destruct v; reflexivity).
    apply rests_bind; [apply item_rests; [exact H|exact Hq]|]. intros x r R _.
    destruct (created_some _ _ _ _ (ltac:(destruct v; reflexivity) : sp_created (it_spec (class_type v)) = []) R) as [st ->]. apply suffix_refl.
  Qed.
  Lemma classes_rests v : forall f it, (length it < f)%nat -> ok it -> rests E it (read_classes_fuel f v it).
  Proof.
    induction f as [|f IH]; intros it Hl Hq; [lia|]. cbn [read_classes_fuel].
    destruct it as [|[p|e] it]; [left; apply gen; discriminate| |right; reflexivity].
    cbn [length] in Hl. assert (Hq' : ok it) by (intros q H; apply Hq; right; exact H).
    destruct (p_code p =? 0); [|apply rests_cons, IH; [lia|exact Hq']].
    apply rests_plain; [apply string_E|]. intros s _. destruct (seqb s (str "ENDSEC")); [apply suffix_refl|]. apply rests_cons.
    apply rests_bind; [apply class_rests, Hq'|]. intros c r _ S. pose proof (suffix_length _ _ S).
    apply rests_bind; [apply IH; [lia|exact (ok_suffix _ _ S Hq')]|]. intros. apply suffix_refl.
  Qed.
  Lemma table_rests k : forall f d it, (length it < f)%nat -> ok it -> rests E it (read_table_fuel f k d it).
  Proof.
    assert (Ha : arms_okb (sp_arms (it_spec (table_spec k))) = true) by (destruct k; reflexivity).
    assert (Hc : sp_created (it_spec (table_spec k)) = []) by (destruct k; reflexivity).
    induction f as [|f IH]; intros d it Hl Hq; [lia|]. cbn [read_table_fuel].
    destruct it as [|[p|e] it]; [left; apply gen; discriminate| |right; reflexivity].
    cbn [length] in Hl. assert (Hq' : ok it) by (intros q H; apply Hq; right; exact H).
    destruct (p_code p =? 0); [|apply rests_cons, IH; [lia|exact Hq']].
    apply rests_plain; [apply string_E|]. intros s _. destruct (seqb s (table_type k)); [|apply suffix_refl]. apply rests_cons.
    apply rests_bind; [apply item_rests; [exact Ha|exact Hq']|]. intros x r R S. destruct (created_some _ _ _ _ Hc R) as [st ->].
    apply IH; [pose proof (suffix_length _ _ S); lia|exact (ok_suffix _ _ S Hq')].
  Qed.
  Lemma swallow_table_rests : forall it, rests E it (let? r := swallow_table it in Ok (tt, r)).
  Proof.
    induction it as [|[p|e] it IH]; cbn [swallow_table]; [left; apply gen; discriminate| |right; reflexivity].
    destruct (p_code p =? 0); [|apply rests_cons, IH]. destruct (assert_string p) as [s|e] eqn:Hs; cbn [bind]; [|left; exact (string_E _ _ Hs)].
    destruct (_ || _); [apply suffix_refl|apply rests_cons, IH].
  Qed.
  Lemma expect_rests s it : rests E it (let? r := expect s it in Ok (tt, r)).
  Proof.
    destruct it as [|[p|e] it]; cbn [expect bind]; [left; apply gen; discriminate| |right; reflexivity].
    destruct (is_zero s p); [apply suffix_cons, suffix_refl|left; apply gen; discriminate].
  Qed.
  Lemma read_table_rests d it : ok it -> rests E it (read_table d it).
  Proof.
    intros Hq. unfold read_table. destruct it as [|[p|e] it]; [left; apply gen; discriminate| |right; reflexivity].
    assert (Hq' : ok it) by (intros q H; apply Hq; right; exact H).
    destruct (p_code p =? 2); [|left; apply gen; discriminate]. apply rests_plain; [apply string_E|]. intros s _. apply rests_cons. apply rests_bind.
    - destruct (table_of_name s) as [k|]; [apply table_rests; [lia|exact Hq']|]. apply (plain_rests swallow_table); [apply swallow_table_rests|]. intros. apply suffix_refl.
    - intros d' r _ _. apply (plain_rests (expect "ENDTAB")); [apply expect_rests|]. intros. apply suffix_refl.
  Qed.

  (** * The thumbnail *)
  Lemma hex_rests : forall it data, rests E it (read_hex_data it data).
  Proof.
    induction it as [|[p|e] it IH]; intros data; cbn [read_hex_data]; [apply suffix_refl| |right; reflexivity].
    destruct (p_code p =? 0); [apply suffix_refl|]. destruct (p_code p =? 310); [|left; apply gen; discriminate]. apply rests_cons.
    apply rests_plain; [apply bin_E, Eok|]. intros. apply IH.
  Qed.
  Lemma set_i32_E d o z e : ThumbnailModel.set_i32 d o z = Err e -> E e.
  Proof. unfold ThumbnailModel.set_i32. destruct (four_bytes d o); intros X; [discriminate X|injection X as <-; apply gen; discriminate]. Qed.
  Lemma read_u32_E d o e : ThumbnailModel.read_u32 d o = Err e -> E e.
  Proof. unfold ThumbnailModel.read_u32. destruct (four_bytes d o) as [[[[? ?] ?] ?]|]; intros X; [discriminate X|injection X as <-; apply gen; discriminate]. Qed.
  Lemma thumbnail_rests it : E Panic -> rests E it (read_thumbnail it).
  Proof.
    intros HP. unfold read_thumbnail. apply rests_bind.
    - unfold read_thumbnail_bytes. destruct it as [|[p|e] it]; [apply suffix_refl| |right; reflexivity].
      destruct (p_code p =? 0); [apply suffix_refl|]. destruct (p_code p =? 90); [|left; apply gen; discriminate]. apply rests_cons.
      apply rests_plain; [apply i32_E|]. intros _ _. apply rests_bind; [apply hex_rests|]. intros data r _ _.
      apply rests_plain; [apply set_i32_E|]. intros. apply suffix_refl.
    - intros [data|] r _ _; [|apply suffix_refl]. apply rests_plain; [|intros [ok d] _; apply suffix_refl]. unfold update_data_offset. intros e.
      apply bind_E; [unfold read_i32; intros e1; apply bind_E; [apply read_u32_E|intros ? ? _ X; discriminate X]|]. intros a e1 _. cbv zeta.
      destruct (_ <=? _)%N; [|discriminate]. apply bind_E; [apply read_u32_E|]. intros b e2 _.
      destruct (_ <=? _)%N; [intros X; injection X as <-; exact HP|]. apply bind_E; [apply set_i32_E|intros ? ? _ X; discriminate X].
  Qed.

  (** * The header *)
  Definition date_free (n : rstring) : Prop := E Panic \/ ~ In n (map str date_names).
  Definition no_date (r : hread) : bool := match r with HDate => false | _ => true end.
  Definition setter_ok (x : hsetter) : bool :=
    match x with HOne _ _ r => no_date r | HMany l => forallb (fun a => no_date (snd a)) l | HPoint _ => true end.
  Lemma apply_hr_E r p e : E Panic \/ no_date r = true -> apply_hr r p = Err e -> E e.
  Proof.
    intros Hd. destruct r; cbn [apply_hr]; [apply apply_r_E, Eok|..];
      try (apply bind_E; [first [conv|apply bool_E, Eok]|intros ? ? _ X; discriminate X]).
    destruct Hd as [HP|Hd]; [|discriminate Hd]. apply bind_E; [apply f64_E|]. intros a e1 _. apply bind_E; [intros e2; apply as_datetime_E, HP|].
    intros ? ? _ X. discriminate X.
  Qed.
  Lemma find_harm_no arms c s r : forallb (fun a : Z * string * hread => no_date (snd a)) arms = true -> find_harm arms c = Some (s, r) -> no_date r = true.
  Proof.
    induction arms as [|[[c' s'] r'] arms IH]; cbn [forallb find_harm snd]; [discriminate|]. intros H. apply andb_prop in H as [H1 H2].
    destruct (c' =? c); [intros X; injection X as _ <-; exact H1|apply IH, H2].
  Qed.
  Lemma set_header_E name p h e : date_free name -> set_header_value header_spec name p h = Err e -> E e.
  Proof.
    intros Hd. unfold set_header_value. destruct (assoc_str name (hs_setters header_spec)) as [x|] eqn:A; [|discriminate].
    assert (Hx : E Panic \/ setter_ok x = true).
    { destruct Hd as [Hd|Hd]; [left; exact Hd|right]. apply assoc_In in A.
      assert (R : forallb (fun y : rstring * hsetter => existsb (seqb (fst y)) (map str date_names) || setter_ok (snd y)) (hs_setters header_spec) = true)
        by (vm_compute; reflexivity).
      rewrite forallb_forall in R. specialize (R _ A). cbn [fst snd] in R. apply orb_prop in R as [R|R]; [|exact R]. exfalso. apply Hd.
      apply existsb_exists in R as [n [Hn R]]. apply seqb_eq in R as ->. exact Hn. }
    destruct (harm_of x (p_code p)) as [[s r]|] eqn:Hh.
    - apply bind_E; [|intros ? ? _ X; discriminate X]. intros e'. apply apply_hr_E. destruct Hx as [Hx|Hx]; [left; exact Hx|right].
      destruct x; cbn [harm_of setter_ok] in *.
      + destruct (code =? p_code p); [injection Hh as _ <-; exact Hx|discriminate Hh].
      + eapply find_harm_no; eassumption.
      + unfold point_slot in Hh. repeat match type of Hh with option_map _ (if ?c then _ else _) = _ => destruct c end; try discriminate Hh;
          cbn [option_map] in Hh; injection Hh as _ <-; reflexivity.
    - intros X. injection X as <-. destruct x; apply gen; discriminate.
  Qed.
  Lemma calm_date p s it : calm E (Ok p :: it) -> p_code p = 9 -> assert_string p = Ok s -> date_free s.
  Proof.
    intros [_ [C|C]] Hc Hs; [left; exact C|right]. intros Hi. apply in_map_iff in Hi as [n [<- Hn]]. apply (C p); [|left; reflexivity].
    unfold wild_pairs. apply in_or_app. right. apply in_map_iff. exists n. split; [|exact Hn].
    destruct p as [c v]. cbn in Hc. subst c. unfold assert_string in Hs. cbn in Hs. destruct v; try discriminate Hs. injection Hs as ->. reflexivity.
  Qed.
  (** With the switch to UTF-8, what follows is part of the newly decoded rest. *)
  Definition hrests {A} (sw : feed -> feed) (it : feed) (m : res (A * feed)) : Prop :=
    rests E it m \/ exists y, suffix y it /\ rests E (sw y) m.
  Lemma header_none_rests : forall it cur h, (match cur with Some n => date_free n | None => True end) -> calm E it ->
    rests E it (header_loop header_spec None cur h it).
  Proof.
    induction it as [|[p|e] it IH]; intros cur h Hcur Hq; cbn [header_loop]; [apply suffix_refl| |right; reflexivity].
    pose proof (calm_rest _ _ Hq) as Hq'. destruct (p_code p =? 0); [apply suffix_refl|]. destruct (p_code p =? 9) eqn:H9.
    - apply rests_cons. apply rests_plain; [apply string_E|]. intros s Hs. apply IH; [|exact Hq']. apply Z.eqb_eq in H9. exact (calm_date _ _ _ Hq H9 Hs).
    - destruct cur as [name|]; [|left; apply gen; discriminate]. apply rests_cons.
      apply rests_plain; [intros e X; exact (set_header_E _ _ _ _ Hcur X)|]. intros h' _. destruct (_ && _); apply IH; assumption.
  Qed.
  Lemma header_some_rests sw : forall it cur h,
    (forall y, suffix y it -> calm E (sw y)) -> (match cur with Some n => date_free n | None => True end) -> calm E it ->
    hrests sw it (header_loop header_spec (Some (fun h r => header_loop header_spec None (Some (str "$ACADVER")) h (sw r))) cur h it).
  Proof.
    assert (Hcons : forall A p it (m : res (A * feed)), hrests sw it m -> hrests sw (Ok p :: it) m).
    { intros A p it m [H|[y [S H]]]; [left; apply rests_cons, H|right; exists y; split; [apply suffix_cons, S|exact H]]. }
    assert (Hplain : forall A B it (m : res A) (k : A -> res (B * feed)), (forall e, m = Err e -> E e) -> (forall a, m = Ok a -> hrests sw it (k a)) -> hrests sw it (bind m k)).
    { intros A B it m k Hm Hk. destruct m as [a|e]; cbn [bind]; [apply Hk; reflexivity|]. left. left. apply Hm. reflexivity. }
    induction it as [|[p|e] it IH]; intros cur h Hsw Hcur Hq; cbn [header_loop]; [left; apply suffix_refl| |left; right; reflexivity].
    assert (Hsw' : forall y, suffix y it -> calm E (sw y)) by (intros y Sy; apply Hsw, suffix_cons, Sy).
    pose proof (calm_rest _ _ Hq) as Hq'. destruct (p_code p =? 0); [left; apply suffix_refl|]. destruct (p_code p =? 9) eqn:H9.
    - apply Hcons. apply Hplain; [apply string_E|]. intros s Hs. apply IH; [exact Hsw'| |exact Hq']. apply Z.eqb_eq in H9. exact (calm_date _ _ _ Hq H9 Hs).
    - destruct cur as [name|]; [|left; left; apply gen; discriminate]. apply Hcons.
      apply Hplain; [intros e X; exact (set_header_E _ _ _ _ Hcur X)|]. intros h' _. destruct (_ && _); [|apply IH; assumption].
      right. exists it. split; [apply suffix_refl|]. apply header_none_rests; [|apply Hsw', suffix_refl]. right. vm_compute. intuition discriminate.
  Qed.
  Lemma header_rests sw u env it : (forall y, suffix y it -> calm E (sw y)) -> calm E it -> hrests sw it (read_header header_spec sw u env it).
  Proof.
    intros Hsw Hq. unfold read_header. destruct u; [left; apply header_none_rests; [exact Logic.I|exact Hq]|]. apply header_some_rests; [exact Hsw|exact Logic.I|exact Hq].
  Qed.
  Lemma swallow_section_rests : forall it, rests E it (let? r := swallow_section it in Ok (tt, r)).
  Proof.
    induction it as [|[p|e] it IH]; cbn [swallow_section]; [apply suffix_refl| |right; reflexivity].
    destruct (p_code p =? 0); [|apply rests_cons, IH]. destruct (assert_string p) as [s|e] eqn:Hs; cbn [bind]; [|left; exact (string_E _ _ Hs)].
    destruct (seqb s (str "ENDSEC")); [apply suffix_refl|apply rests_cons, IH].
  Qed.

  (** * Iterators over items, and what is built on them *)
  Definition sound (it : feed) : Prop := forall e, In (Err e) it -> genuine e.
  Definition good (it : feed) : Prop := calm E it /\ sound it.
  Lemma good_tail a b : tail_of a b -> good b -> good a.
  Proof. intros T [H1 H2]. split; [exact (calm_tail _ _ _ T H1)|]. intros e He. apply H2. exact (tail_In _ _ _ T He). Qed.
  Lemma good_ok it : good it -> ok it.
  Proof. intros [H _]. apply calm_ok, H. Qed.
  Lemma rests_E {A} it (m : res (A * feed)) e : good it -> rests E it m -> m = Err e -> E e.
  Proof. intros [_ Hg] H ->. destruct H as [H|H]; [exact H|]. apply Eok, Hg, first_error_In, H. Qed.
  (** Like [rests], for readers that swallow malformed pairs. *)
  Definition goes {A} (it : feed) (m : res (A * feed)) : Prop := match m with Ok (_, r) => tail_of r it | Err e => E e end.
  Lemma rests_goes {A} it (m : res (A * feed)) : good it -> rests E it m -> goes it m.
  Proof. intros Hg H. destruct m as [[a r]|e] eqn:M; cbn [goes]; [apply suffix_tail, H|]. exact (rests_E it _ e Hg H eq_refl). Qed.
  Lemma goes_bind {A B} it (m : res (A * feed)) (k : A * feed -> res (B * feed)) :
    goes it m -> (forall a r, m = Ok (a, r) -> tail_of r it -> goes r (k (a, r))) -> goes it (bind m k).
  Proof.
    intros Hm Hk. destruct m as [[a r]|e]; cbn [bind goes] in *; [|exact Hm]. specialize (Hk a r eq_refl Hm).
    destruct (k (a, r)) as [[b r']|e]; cbn [goes] in *; [eapply tail_trans; eassumption|exact Hk].
  Qed.
  Lemma goes_tail {A} a b (m : res (A * feed)) : tail_of a b -> goes a m -> goes b m.
  Proof. intros T. destruct m as [[x r]|e]; cbn [goes]; [intros H; eapply tail_trans; eassumption|tauto]. Qed.
  Lemma stop_tail {A} (f : feed -> res (A * feed)) : forall rest seen, tail_of (stop_behind f seen rest) rest.
  Proof.
    induction rest as [|x rest IH]; intros seen; cbn [stop_behind]; destruct (f _) as [a|[]]; try apply tail_refl. apply tail_cons, IH.
  Qed.
  Lemma swallow_spec {A} (f : feed -> res (option A * feed)) it : good it -> rests E it (f it) -> takes it (f it) ->
    goes it (swallow f it) /\ takes it (swallow f it).
  Proof.
    intros Hg Hr Ht. unfold swallow. destruct (f it) as [[x r]|e] eqn:F; [split; [apply suffix_tail, Hr|exact Ht]|].
    pose proof (rests_E it (Err e : res (option A * feed)) e Hg Hr eq_refl) as He. unfold after_error.
    destruct e; split; try exact Logic.I; try exact He; exact (stop_tail f it []).
  Qed.
  Lemma entity_next_spec it : good it -> goes it (entity_next it) /\ takes it (entity_next it).
  Proof.
    intros Hg. apply swallow_spec; [exact Hg|apply read_entity_rests, good_ok, Hg|]. unfold read_entity. apply entity_rests; [lia|apply good_ok, Hg].
  Qed.
  Definition weight (s : ents) : nat := (match fst s with Some _ => 1 | None => 0 end + length (snd s))%nat.
  Lemma pnext_spec s : good (snd s) ->
    match pnext s with
    | Ok (o, s') => tail_of (snd s') (snd s) /\ fst s' = None /\ (weight s' + match o with Some _ => 1 | None => 0 end <= weight s)%nat
    | Err e => E e
    end.
  Proof.
    intros Hg. destruct s as [[e|] it]; unfold pnext, weight; cbn [fst snd] in *; [split; [apply tail_refl|split; [reflexivity|cbn [fst snd]; lia]]|].
    destruct (entity_next_spec it Hg) as [H1 H2]. destruct (entity_next it) as [[o r]|e]; cbn [bind goes takes] in *; [|exact H1].
    split; [exact H1|]. split; [reflexivity|]. cbn [fst snd]. pose proof (tail_length _ _ H1). destruct o; lia.
  Qed.
  (** A step on the entities: what is left is no more than before. *)
  Definition shrinks {A} (s : ents) (m : res (A * ents)) : Prop :=
    match m with Ok (_, s') => tail_of (snd s') (snd s) /\ (weight s' <= weight s)%nat | Err e => E e end.
  Lemma shrinks_bind {A B} s (m : res (A * ents)) (k : A * ents -> res (B * ents)) :
    shrinks s m -> (forall a s', m = Ok (a, s') -> tail_of (snd s') (snd s) -> (weight s' <= weight s)%nat -> shrinks s' (k (a, s'))) -> shrinks s (bind m k).
  Proof.
    intros Hm Hk. destruct m as [[a s']|e]; cbn [bind shrinks] in *; [|exact Hm]. destruct Hm as [H1 H2]. specialize (Hk a s' eq_refl H1 H2).
    destruct (k (a, s')) as [[b s'']|e]; cbn [shrinks] in *; [|exact Hk]. destruct Hk as [K1 K2]. split; [eapply tail_trans; eassumption|lia].
  Qed.
  Lemma shrinks_refl {A} (x : A) s : shrinks s (Ok (x, s)).
  Proof. split; [apply tail_refl|lia]. Qed.
  Lemma seqend_shrinks s : good (snd s) -> shrinks s (let? s' := swallow_seqend s in Ok (tt, s')).
  Proof.
    intros Hg. unfold swallow_seqend. pose proof (pnext_spec s Hg) as H. destruct (pnext s) as [[o s']|e]; cbn [bind shrinks]; [|exact H].
    destruct H as [H1 [H2 H3]]. destruct o as [e|]; [|split; [exact H1|lia]]. destruct (is_kind "Seqend" e); cbn [shrinks bind]; (split; [exact H1|]); [lia|].
    unfold weight in *. rewrite H2 in H3. cbn [fst snd] in *. lia.
  Qed.
  Lemma mtext_shrinks s : good (snd s) -> shrinks s (take_mtext s).
  Proof.
    intros Hg. unfold take_mtext. pose proof (pnext_spec s Hg) as H. destruct (pnext s) as [[o s']|e]; cbn [bind shrinks]; [|exact H].
    destruct H as [H1 [H2 H3]]. destruct o as [e|]; [|split; [exact H1|lia]]. destruct (is_kind "MText" e); cbn [shrinks]; (split; [exact H1|]); [lia|].
    unfold weight in *. rewrite H2 in H3. cbn [fst snd] in *. lia.
  Qed.
  Lemma children_shrink n : forall f s, good (snd s) -> (weight s < f)%nat -> shrinks s (take_children n f s).
  Proof.
    induction f as [|f IH]; intros s Hg Hf; [lia|]. cbn [take_children]. pose proof (pnext_spec s Hg) as H.
    destruct (pnext s) as [[o s']|e]; cbn [bind shrinks]; [|exact H]. destruct H as [H1 [H2 H3]].
    destruct o as [e|]; [|split; [exact H1|lia]]. destruct (is_kind n e).
    - assert (S : shrinks s' (let? (l, s'') := take_children n f s' in Ok ((child_of e default_mtext, auto_replace) :: l, s''))).
      { apply shrinks_bind; [apply IH; [exact (good_tail _ _ H1 Hg)|lia]|]. intros. apply shrinks_refl. }
      destruct (bind _ _) as [[l s'']|e']; cbn [shrinks] in *; [|exact S]. destruct S as [S1 S2]. split; [eapply tail_trans; eassumption|lia].
    - split; [exact H1|]. unfold weight in *. rewrite H2 in H3. cbn [fst snd] in *. lia.
  Qed.
  Lemma fuel_enough s : (weight s < ents_fuel s)%nat.
  Proof. unfold weight, ents_fuel. destruct (fst s); lia. Qed.
  Lemma collect_goes : forall f s, good (snd s) -> (weight s < f)%nat -> goes (snd s) (collect_fuel f s).
  Proof.
    induction f as [|f IH]; intros s Hg Hf; [lia|]. cbn [collect_fuel]. pose proof (pnext_spec s Hg) as H.
    destruct (pnext s) as [[o s1]|e]; cbn [bind goes]; [|exact H]. destruct H as [H1 [H2 H3]]. destruct o as [e|]; [|exact H1].
    pose proof (good_tail _ _ H1 Hg) as Hg1. apply (goes_tail _ _ _ H1).
    match goal with |- goes _ (bind ?m _) => assert (S : shrinks s1 m) end.
    { assert (Hch : forall n, shrinks s1 (let? (l, s2) := take_children n (ents_fuel s1) s1 in let? s3 := swallow_seqend s2 in Ok (entity_of e l default_mtext, s3))).
      { intros n. apply shrinks_bind; [apply children_shrink; [exact Hg1|apply fuel_enough]|]. intros l s2 _ T _.
        pose proof (seqend_shrinks s2 (good_tail _ _ T Hg1)) as S. destruct (swallow_seqend s2); exact S. }
      destruct (has_mtext (kind_of e)); [apply shrinks_bind; [apply mtext_shrinks, Hg1|]; intros; apply shrinks_refl|].
      destruct (is_kind "Insert" e && has_attributes e); [apply Hch|]. destruct (is_kind "Polyline" e); [apply Hch|]. apply shrinks_refl. }
    match goal with |- goes _ (bind ?m _) => destruct m as [[x s2]|e']; cbn [bind shrinks goes] in *; [|exact S] end. destruct S as [S1 S2].
    apply (goes_tail _ _ _ S1). apply goes_bind; [apply IH; [exact (good_tail _ _ S1 Hg1)|lia]|]. intros. apply tail_refl.
  Qed.
  Lemma read_entities_goes d it : good it -> goes it (read_entities d it).
  Proof.
    intros Hg. unfold read_entities. apply goes_bind; [|intros; apply tail_refl]. unfold collect.
    apply (collect_goes (S (length it)) (None, it)); [exact Hg|]. unfold weight. cbn [fst snd]. lia.
  Qed.
  Lemma objects_goes : forall f d it, good it -> (length it < f)%nat -> goes it (read_objects_fuel f d it).
  Proof.
    induction f as [|f IH]; intros d it Hg Hf; [lia|]. cbn [read_objects_fuel].
    assert (S : goes it (swallow read_object it) /\ takes it (swallow read_object it)).
    { apply swallow_spec; [exact Hg|apply read_object_rests, Hg|]. unfold read_object. apply object_rests; [lia|apply Hg]. }
    destruct S as [S1 S2]. destruct (swallow read_object it) as [[[o|] r]|e]; cbn [bind goes takes] in *; [|exact S1|exact S1].
    apply (goes_tail _ _ _ S1), IH; [exact (good_tail _ _ S1 Hg)|lia].
  Qed.

  (** * Blocks *)
  Definition endless (it : feed) : Prop := E OutOfFuel \/ ~ In (Ok (zero "ENDSEC")) it.
  Lemma endless_tail a b : tail_of a b -> endless b -> endless a.
  Proof. intros T [H|H]; [left; exact H|right]. intros Ha. exact (H (tail_In _ _ _ T Ha)). Qed.
  Lemma stop_shorter {A} (f : feed -> res (A * feed)) x it : f [marker] = Err OutOfFuel -> tail_of (stop_behind f [] (x :: it)) it.
  Proof. intros H. cbn [stop_behind rev app]. rewrite H. apply stop_tail. Qed.
  Lemma is_zero_eq s p : is_zero s p = true <-> p = zero s.
  Proof.
    unfold is_zero. split.
    - intros H. apply andb_prop in H as [H1 H2]. apply Z.eqb_eq in H1. destruct p as [c v]. cbn [p_code p_value] in *. destruct v; try discriminate H2.
      apply seqb_eq in H2. subst. reflexivity.
    - intros ->. cbn [p_code p_value zero]. cbn. apply seqb_refl.
  Qed.
  (** Reading entities takes at least one pair, unless the section or block ends here. *)
  Lemma entity_next_less p it : good (Ok p :: it) -> is_zero "ENDBLK" p = false -> is_zero "ENDSEC" p = false ->
    match entity_next (Ok p :: it) with Ok (_, r) => (length r <= length it)%nat | Err e => E e end.
  Proof.
    intros Hg Hb Hs. destruct (entity_next_spec _ Hg) as [H1 H2]. unfold entity_next, swallow in *.
    destruct (read_entity (Ok p :: it)) as [[[x|] r]|e] eqn:R.
    - cbn [takes length] in H2. lia.
    - (* no entity *)
      unfold read_entity in R. cbn [read_entity_fuel] in R. destruct (p_code p =? 0) eqn:Hc; [|discriminate R].
      destruct (assert_string p) as [s|e] eqn:As; cbn [bind] in R; [|discriminate R].
      assert (Hz : forall n, is_zero n p = seqb s (str n)).
      { intros n. unfold is_zero. rewrite Hc. unfold assert_string in As. destruct (p_value p); try discriminate As. injection As as ->. reflexivity. }
      rewrite <- !Hz, Hb, Hs in R. cbn [orb] in R.
      assert (L : forall f i, ok i -> (length i < f)%nat -> match read_entity_fuel f i with Ok (_, r') => (length r' <= length i)%nat | _ => True end).
      { intros f i Hq Hl. destruct (entity_rests f i Hl Hq) as [Hr _]. destruct (read_entity_fuel f i) as [[a r']|e]; [|exact Logic.I].
        apply suffix_length, Hr. }
      pose proof (good_ok _ (good_tail it (Ok p :: it) (tail_cons _ _ _ (tail_refl _)) Hg)) as Hq. cbn [length] in R.
      destruct (is_zero "DIMENSION" p).
      + pose proof (dimension_rests it Hq) as Hd. destruct (read_dimension dimensions it) as [[[x|] r']|e]; cbn [bind] in R; try discriminate R.
        cbn [rests] in Hd. pose proof (suffix_length _ _ Hd). specialize (L (S (length it)) r' (ok_suffix _ _ Hd Hq)). rewrite R in L. lia.
      + destruct (from_type_string s) as [t|] eqn:Ft.
        * pose proof (item_rests (it_spec t) it (type_okb _ _ Ft) Hq) as Hd. destruct (read_item (it_spec t) it) as [[[x|] r']|e]; cbn [bind] in R; try discriminate R.
          cbn [rests] in Hd. pose proof (suffix_length _ _ Hd). specialize (L (S (length it)) r' (ok_suffix _ _ Hd Hq)). rewrite R in L. lia.
        * pose proof (skip_rests it) as Hd. destruct (skip_item it) as [r'|e]; cbn [bind] in R; try discriminate R.
          cbn [rests bind] in Hd. pose proof (suffix_length _ _ Hd). specialize (L (S (length it)) r' (ok_suffix _ _ Hd Hq)). rewrite R in L. lia.
    - assert (Hl : (length (after_error read_entity (Ok p :: it)) <= length it)%nat).
      { unfold after_error. apply tail_length, stop_shorter. reflexivity. }
      destruct e; first [exact H1|exact Hl].
  Qed.
  Lemma collect_less p it : good (Ok p :: it) -> is_zero "ENDBLK" p = false -> is_zero "ENDSEC" p = false ->
    match collect (Ok p :: it) with Ok (_, r) => tail_of r (Ok p :: it) /\ (length r <= length it)%nat | Err e => E e end.
  Proof.
    intros Hg Hb Hs. pose proof (entity_next_less p it Hg Hb Hs) as Hn. destruct (entity_next_spec _ Hg) as [N1 _].
    assert (Hc : goes (Ok p :: it) (collect (Ok p :: it))).
    { unfold collect. apply (collect_goes (S (length (Ok p :: it))) (None, Ok p :: it)); [exact Hg|]. unfold weight. cbn [fst snd]. lia. }
    destruct (collect (Ok p :: it)) as [[l r]|e] eqn:C; [|exact Hc]. split; [exact Hc|].
    unfold collect in C. cbn [collect_fuel] in C. unfold pnext in C. cbn [fst snd] in C.
    destruct (entity_next (Ok p :: it)) as [[o r1]|e] eqn:EN; cbn [bind] in C; [|discriminate C]. cbn [goes] in N1.
    destruct o as [e|]; [|injection C as _ <-; exact Hn].
    pose proof (good_tail _ _ N1 Hg) as Hg1.
    match type of C with bind ?m _ = _ => assert (S : shrinks (None, r1) m) end.
    { assert (Hch : forall n, shrinks (None, r1) (let? (l, s2) := take_children n (ents_fuel (None, r1)) (None, r1) in let? s3 := swallow_seqend s2 in Ok (entity_of e l default_mtext, s3))).
      { intros n. apply shrinks_bind; [apply children_shrink; [exact Hg1|apply fuel_enough]|]. intros l0 s2 _ T _.
        pose proof (seqend_shrinks s2 (good_tail _ _ T Hg1)) as S. destruct (swallow_seqend s2); exact S. }
      destruct (has_mtext (kind_of e)); [apply shrinks_bind; [apply mtext_shrinks, Hg1|]; intros; apply shrinks_refl|].
      destruct (is_kind "Insert" e && has_attributes e); [apply Hch|]. destruct (is_kind "Polyline" e); [apply Hch|]. apply shrinks_refl. }
    match type of C with bind ?m _ = _ => destruct m as [[x s2]|e']; cbn [bind shrinks] in *; [|discriminate C] end. destruct S as [S1 S2].
    unfold weight at 2 in S2. cbn [fst snd] in *.
    pose proof (collect_goes (length (Ok p :: it)) s2 (good_tail _ _ S1 Hg1)) as G. cbn [length] in *. specialize (G ltac:(lia)).
    destruct (collect_fuel (S (length it)) s2) as [[l' r']|e']; cbn [bind goes] in *; [|discriminate C]. injection C as _ <-.
    apply tail_length in G. apply tail_length in S1. lia.
  Qed.
  Lemma block_goes : forall f st es it, good it -> endless it -> (length it < f)%nat -> goes it (read_block_fuel f st es it).
  Proof.
    induction f as [|f IH]; intros st es it Hg He Hf; [lia|]. cbn [read_block_fuel]. apply goes_bind.
    { apply rests_goes; [exact Hg|]. apply runb_rests; [reflexivity|apply good_ok, Hg]. }
    intros x r R T. pose proof (good_tail _ _ T Hg) as Hgr. pose proof (endless_tail _ _ T He) as Her. pose proof (tail_length _ _ T) as L.
    destruct r as [|[p|e] r]; [apply gen; discriminate| |apply gen; discriminate].
    pose proof (good_tail r (Ok p :: r) (tail_cons _ _ _ (tail_refl _)) Hgr) as Hgr'.
    destruct (is_zero "ENDBLK" p) eqn:Hb.
    - apply (goes_tail r); [apply tail_cons, tail_refl|]. apply rests_goes; [exact Hgr'|]. apply (plain_rests skip_item); [apply skip_rests|]. intros. apply suffix_refl.
    - destruct Her as [HO|Hs].
      + (* whatever happens, running out of fuel is allowed *)
        assert (G : forall f st es it, good it -> goes it (read_block_fuel f st es it)).
        { clear st es x Hg He Hf R T Hgr L Hgr' Hb p r it IH f. induction f as [|f IH]; intros st es it Hg; cbn [read_block_fuel]; [exact HO|]. apply goes_bind.
          { apply rests_goes; [exact Hg|]. apply runb_rests; [reflexivity|apply good_ok, Hg]. }
          intros x r R T. pose proof (good_tail _ _ T Hg) as Hgr. destruct r as [|[p|e] r]; [apply gen; discriminate| |apply gen; discriminate].
          destruct (is_zero "ENDBLK" p).
          - apply (goes_tail r); [apply tail_cons, tail_refl|].
            apply rests_goes; [exact (good_tail r (Ok p :: r) (tail_cons _ _ _ (tail_refl _)) Hgr)|]. apply (plain_rests skip_item); [apply skip_rests|]. intros. apply suffix_refl.
          - apply goes_bind.
            + unfold collect. apply (collect_goes (S (length (Ok p :: r))) (None, Ok p :: r)); [exact Hgr|]. unfold weight. cbn [fst snd]. lia.
            + intros l r' _ T'. apply IH. exact (good_tail _ _ T' Hgr). }
        apply goes_bind; [|intros l r' _ T'; apply G; exact (good_tail _ _ T' Hgr)].
        unfold collect. apply (collect_goes (S (length (Ok p :: r))) (None, Ok p :: r)); [exact Hgr|]. unfold weight. cbn [fst snd]. lia.
      + assert (Hz : is_zero "ENDSEC" p = false).
        { destruct (is_zero "ENDSEC" p) eqn:Z; [|reflexivity]. apply is_zero_eq in Z as ->. exfalso. apply Hs. left. reflexivity. }
        pose proof (collect_less p r Hgr Hb Hz) as C. cbn [length] in L. destruct (collect (Ok p :: r)) as [[l r']|e]; cbn [bind goes]; [|exact C]. destruct C as [C1 C2].
        apply (goes_tail _ _ _ C1). apply IH; [exact (good_tail _ _ C1 Hgr)| |lia]. apply (endless_tail _ _ C1). right. exact Hs.
  Qed.
  Lemma read_block_goes d it : good it -> endless it -> goes it (read_block d it).
  Proof. intros Hg He. unfold read_block. apply goes_bind; [apply block_goes; [exact Hg|exact He|lia]|]. intros. apply tail_refl. Qed.

  (** * Sections *)
  Lemma section_item_goes typ cb : (forall d it, good it -> (forall p, p = zero typ -> ~ In p slow_pairs \/ E OutOfFuel) -> goes it (cb d it)) ->
    forall f d it, good it -> (length it < f)%nat -> goes it (read_section_item f typ cb d it).
  Proof.
    intros Hcb. induction f as [|f IH]; intros d it Hg Hf; [lia|]. cbn [read_section_item].
    destruct it as [|[p|e] it]; [apply gen; discriminate| |cbn [goes]; apply Eok; apply Hg; left; reflexivity].
    destruct (p_code p =? 0) eqn:Hc; [|apply gen; discriminate]. destruct (assert_string p) as [s|e] eqn:As; cbn [bind]; [|exact (string_E _ _ As)].
    destruct (seqb s (str "ENDSEC")); [apply tail_refl|]. destruct (seqb s (str typ)) eqn:Ht; [|apply gen; discriminate].
    apply seqb_eq in Ht as ->. apply Z.eqb_eq in Hc. pose proof (zero_pair _ _ Hc As) as Hp. cbn [length] in Hf.
    pose proof (good_tail it (Ok p :: it) (tail_cons _ _ _ (tail_refl _)) Hg) as Hg'. apply (goes_tail it); [apply tail_cons, tail_refl|].
    apply goes_bind.
    - apply Hcb; [exact Hg'|]. intros q ->. destruct Hg as [[[C|C] _] _]; [right; exact C|left]. intros Hi. apply (C _ Hi). left. rewrite Hp. reflexivity.
    - intros d' r' _ T. apply IH; [exact (good_tail _ _ T Hg')|]. apply tail_length in T. lia.
  Qed.
  (** [sw] turns what is left of a good file into something good. *)
  Definition kept_good (sw : feed -> feed) (it : feed) : Prop := forall y, tail_of y it -> good (sw y).
  Lemma header_goes sw u env it : (u = true \/ kept_good sw it) -> good it ->
    match read_header header_spec sw u env it with
    | Ok (_, u', r) => (u = true -> u' = true) /\ (tail_of r it \/ (u = false /\ u' = true /\ exists y, tail_of y it /\ tail_of r (sw y)))
    | Err e => E e
    end.
  Proof.
    intros Hsw Hg.
    assert (N : forall it cur h, match header_loop header_spec None cur h it with Ok (_, u', _) => u' = true | Err _ => True end).
    { clear. induction it as [|[p|e] it IH]; intros cur h; cbn [header_loop]; [reflexivity| |exact Logic.I].
      destruct (p_code p =? 0); [reflexivity|]. destruct (p_code p =? 9); [destruct (assert_string p); cbn [bind]; [apply IH|exact Logic.I]|].
      destruct cur as [name|]; [|exact Logic.I]. destruct (set_header_value _ _ _ _); cbn [bind]; [|exact Logic.I]. destruct (_ && _); apply IH. }
    destruct u.
    - unfold read_header. pose proof (header_none_rests it None (header_default header_spec env) Logic.I (proj1 Hg)) as H.
      specialize (N it None (header_default header_spec env)).
      destruct (header_loop _ _ _ _ _) as [[[h u'] r]|e]; [|exact (rests_E _ _ _ Hg H eq_refl)]. split; [intros _; exact N|left; apply suffix_tail, H].
    - destruct Hsw as [Hsw|Hsw]; [discriminate Hsw|].
      assert (S : forall it cur h, kept_good sw it -> good it -> (match cur with Some n => date_free n | None => True end) ->
        match header_loop header_spec (Some (fun h r => header_loop header_spec None (Some (str "$ACADVER")) h (sw r))) cur h it with
        | Ok (_, u', r) => tail_of r it \/ (u' = true /\ exists y, tail_of y it /\ tail_of r (sw y)) | Err e => E e end).
      { clear Hsw Hg it env. induction it as [|[p|e] it IH]; intros cur h Hsw Hg Hcur; cbn [header_loop]; [left; apply tail_refl| |apply Eok, Hg; left; reflexivity].
        assert (T : tail_of it (Ok p :: it)) by (apply tail_cons, tail_refl). pose proof (good_tail _ _ T Hg) as Hg'.
        assert (Hsw' : kept_good sw it) by (intros y Ty; apply Hsw; eapply tail_trans; eassumption).
        assert (C : forall m : res (store * bool * feed), match m with Ok (_, u', r) => tail_of r it \/ (u' = true /\ exists y, tail_of y it /\ tail_of r (sw y)) | Err e => E e end ->
          match m with Ok (_, u', r) => tail_of r (Ok p :: it) \/ (u' = true /\ exists y, tail_of y (Ok p :: it) /\ tail_of r (sw y)) | Err e => E e end).
        { intros [[[x u'] r]|e]; [|tauto]. intros [H|[H1 [y [H2 H3]]]]; [left; apply tail_cons, H|right; split; [exact H1|exists y; split; [apply tail_cons, H2|exact H3]]]. }
        destruct (p_code p =? 0); [left; apply tail_refl|]. destruct (p_code p =? 9) eqn:H9.
        - destruct (assert_string p) as [s|e] eqn:Hs; cbn [bind]; [|exact (string_E _ _ Hs)]. apply C, IH; [exact Hsw'|exact Hg'|].
          apply Z.eqb_eq in H9. exact (calm_date _ _ _ (proj1 Hg) H9 Hs).
        - destruct cur as [name|]; [|apply gen; discriminate]. destruct (set_header_value header_spec name p h) as [h'|e] eqn:Hset; cbn [bind].
          2:{ exact (set_header_E _ _ _ _ Hcur Hset). }
          destruct (_ && _); [|apply C, IH; assumption]. pose proof (Hsw it T) as G.
          pose proof (header_none_rests (sw it) (Some (str "$ACADVER")) h' ltac:(right; vm_compute; intuition discriminate) (proj1 G)) as H.
          specialize (N (sw it) (Some (str "$ACADVER")) h').
          destruct (header_loop _ _ _ _ _) as [[[x u'] r]|e]; [|exact (rests_E _ _ _ G H eq_refl)].
          right. split; [exact N|]. exists it. split; [exact T|apply suffix_tail, H]. }
      specialize (S it None (header_default header_spec env) Hsw Hg Logic.I). unfold read_header. destruct (header_loop _ _ _ _ _) as [[[x u'] r]|e]; [|exact S].
      split; [discriminate|]. destruct S as [S|S]; [left; exact S|right; split; [reflexivity|exact S]].
  Qed.
  Lemma section_goes sw env name u d it : (u = true \/ kept_good sw it) -> good it -> (E Panic \/ name <> str "THUMBNAILIMAGE") ->
    match read_section sw env name u d it with
    | Ok (_, u', r) => (u = true -> u' = true) /\ (tail_of r it \/ (u = false /\ u' = true /\ exists y, tail_of y it /\ tail_of r (sw y)))
    | Err e => E e
    end.
  Proof.
    intros Hsw Hg Ht. unfold read_section.
    assert (G : forall m : res (drawing * feed), goes it m -> match (let? (d', r) := m in Ok (d', u, r)) with
      | Ok (_, u', r) => (u = true -> u' = true) /\ (tail_of r it \/ (u = false /\ u' = true /\ exists y, tail_of y it /\ tail_of r (sw y))) | Err e => E e end).
    { intros [[a r]|e] H; cbn [bind goes] in *; [|exact H]. split; [tauto|left; exact H]. }
    destruct (seqb name (str "HEADER")).
    { pose proof (header_goes sw u env it Hsw Hg) as H. destruct (read_header _ _ _ _ _) as [[[h u'] r]|e]; cbn [bind fst snd]; exact H. }
    destruct (seqb name (str "CLASSES")).
    { apply G. unfold read_classes. apply goes_bind; [apply rests_goes; [exact Hg|apply classes_rests; [lia|apply good_ok, Hg]]|]. intros. apply tail_refl. }
    destruct (seqb name (str "TABLES")).
    { apply G, section_item_goes; [|exact Hg|lia]. intros d' i Hi _. apply rests_goes; [exact Hi|]. apply read_table_rests, good_ok, Hi. }
    destruct (seqb name (str "BLOCKS")).
    { apply G, section_item_goes; [|exact Hg|lia]. intros d' i Hi Hb. apply read_block_goes; [exact Hi|]. left. destruct (Hb _ eq_refl) as [Hb'|Hb']; [|exact Hb'].
      exfalso. apply Hb'. right. left. reflexivity. }
    destruct (seqb name (str "ENTITIES")); [apply G, read_entities_goes, Hg|].
    destruct (seqb name (str "OBJECTS")); [apply G, objects_goes; [exact Hg|lia]|].
    destruct (seqb name (str "THUMBNAILIMAGE")) eqn:Hn.
    { assert (HP : E Panic) by (destruct Ht as [Ht|Ht]; [exact Ht|]; exfalso; apply Ht; apply seqb_eq, Hn).
      pose proof (rests_goes it _ Hg (thumbnail_rests it HP)) as H. destruct (read_thumbnail it) as [[t r]|e]; cbn [bind goes] in *; [split; [tauto|left; exact H]|exact H]. }
    pose proof (rests_goes it _ Hg (swallow_section_rests it)) as H. destruct (swallow_section it) as [r|e]; cbn [bind goes] in *; [split; [tauto|left; exact H]|exact H].
  Qed.
  (** Reading a file: it ends, its errors satisfy [E]. *)
  Lemma kept_tail sw a b : tail_of a b -> kept_good sw b -> kept_good sw a.
  Proof. intros T H y Ty. apply H. eapply tail_trans; eassumption. Qed.
  Lemma expect_tail s it r : expect s it = Ok r -> (length r < length it)%nat /\ tail_of r it.
  Proof.
    destruct it as [|[p|e] it]; cbn [expect]; try discriminate. destruct (is_zero s p); [|discriminate]. intros X. injection X as <-.
    split; [cbn [length]; lia|apply tail_cons, tail_refl].
  Qed.
  Definition sections_fine (m : res (drawing * feed)) : Prop := match m with Ok (_, r) => good r | Err e => E e end.
  Lemma sections_with_end sw env again : forall f u d it, (u = true \/ (kept_good sw it /\ forall d r, good r -> sections_fine (again d r))) -> good it -> (length it < f)%nat ->
    sections_fine (sections_with sw env again f u d it).
  Proof.
    unfold sections_fine. induction f as [|f IH]; intros u d it Hsw Hg Hf; [lia|]. cbn [sections_with].
    destruct it as [|[p|e] it]; [exact Hg| |apply Eok, Hg; left; reflexivity].
    assert (T : tail_of it (Ok p :: it)) by (apply tail_cons, tail_refl). pose proof (good_tail _ _ T Hg) as Hg'. cbn [length] in Hf.
    destruct (p_code p =? 0); [|apply gen; discriminate]. destruct (assert_string p) as [s|e] eqn:As; cbn [bind]; [|exact (string_E _ _ As)].
    destruct (seqb s (str "EOF")); [exact Hg|]. destruct (seqb s (str "SECTION")); [|apply gen; discriminate].
    destruct it as [|[q|e] it]; [apply gen; discriminate| |apply Eok, Hg'; left; reflexivity].
    assert (T' : tail_of it (Ok q :: it)) by (apply tail_cons, tail_refl). pose proof (good_tail _ _ T' Hg') as Hg''. cbn [length] in Hf.
    destruct (if p_code q =? 2 then _ else _) as [name|] eqn:Hn; [|apply gen; discriminate].
    assert (Hth : E Panic \/ name <> str "THUMBNAILIMAGE").
    { destruct (p_code q =? 2) eqn:H2; [|discriminate Hn]. destruct (p_value q) eqn:Hv; try discriminate Hn. injection Hn as ->. apply Z.eqb_eq in H2.
      destruct Hg as [[_ [C|C]] _]; [left; exact C|right]. intros ->. apply (C (name_pair "THUMBNAILIMAGE")).
      - right. right. left. reflexivity.
      - right. left. destruct q as [c v]. cbn [p_code p_value] in *. subst. reflexivity. }
    assert (Hsw2 : u = true \/ kept_good sw it).
    { destruct Hsw as [Hsw|[Hsw _]]; [left; exact Hsw|right]. apply (kept_tail _ _ _ T'), (kept_tail _ _ _ T), Hsw. }
    pose proof (section_goes sw env name u d it Hsw2 Hg'' Hth) as S.
    destruct (read_section sw env name u d it) as [[[d' u'] r]|e]; cbn [bind fst snd]; [|exact S]. destruct S as [Su S].
    assert (R : good r /\ ((u = false /\ u' = true) \/ ((length r <= length it)%nat /\ (u' = true \/ kept_good sw r)))).
    { destruct S as [S|[Hu0 [Hu [y [Ty Sy]]]]].
      - split; [exact (good_tail _ _ S Hg'')|]. right. split; [apply tail_length, S|]. destruct Hsw2 as [H|H]; [left; apply Su, H|right; exact (kept_tail _ _ _ S H)].
      - destruct Hsw2 as [H|H]; [rewrite Hu0 in H; discriminate H|]. split; [exact (good_tail _ _ Sy (H y Ty))|]. left. split; assumption. }
    destruct R as [R1 R2]. pose proof (expect_rests "ENDSEC" r) as X. destruct (expect "ENDSEC" r) as [r3|e] eqn:Ex; cbn [bind] in *.
    2:{ exact (rests_E _ (Err e : res (unit * feed)) e R1 X eq_refl). }
    destruct (expect_tail _ _ _ Ex) as [L T3]. pose proof (good_tail _ _ T3 R1) as R3. destruct (negb u && u') eqn:Q.
    { destruct Hsw as [->|[_ Hag]]; [discriminate Q|]. exact (Hag d' r3 R3). }
    destruct R2 as [[-> ->]|[R2 R4]]; [discriminate Q|]. apply IH; [|exact R3|lia].
    destruct Hsw as [Hu|[_ Hag]]; [left; apply Su, Hu|]. destruct R4 as [H|H]; [left; exact H|right; split; [exact (kept_tail _ _ _ T3 H)|exact Hag]].
  Qed.
  Lemma sections_end sw env f u d it : (u = true \/ kept_good sw it) -> good it -> (length it < f)%nat ->
    match read_sections sw env f u d it with Ok (_, r) => good r | Err e => E e end.
  Proof.
    intros Hsw Hg Hf. apply (sections_with_end sw env); [|exact Hg|exact Hf]. destruct Hsw as [H|H]; [left; exact H|right; split; [exact H|]].
    intros d' r Hr. apply sections_with_end; [left; reflexivity|exact Hr|lia].
  Qed.
End Ends.

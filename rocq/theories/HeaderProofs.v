(** A checker for the header specification and its soundness. *)
From Verif Require Import Base TextModel F64Model F64Proofs CodePairModel VersionModel VersionProofs StreamModel UuidModel UuidSpec UuidProofs DateModel DateProofs
  SpecModel SpecSpec SpecCheck SpecProofs SpecCoverProofs SpecWitness HeaderModel HeaderSpec.
Open Scope Z_scope.
Set Default Goal Selector "!".

Definition acadver : rstring := str "$ACADVER".
Lemma version_of_val v : version_of (version_val v) = v.
Proof. destruct v; reflexivity. Qed.

(** * The checker *)
Definition hconv_ok (known : bool) (code : Z) (r : hread) (w : hwrite) (k : hkind) : bool :=
  match r, w, k with
  | HR r, HW w, HKind k => conv_ok known code r w k
  | HUuid, HWUuid, HUuidK | HDate, HWDate, HDateK | HDuration, HWDuration, HDurationK => true
  | HClip, HWClip, HKind (KEnum ks) => forallb (fun z => (z =? 0) || (z =? 1)) ks
  | HR RF64ofI16, HWI16ofF64, HWhole16K => true
  | HEnumF64 vals _, HW WF64ofInt, HKind (KEnum ks) => forallb (fun z => existsb (Z.eqb z) vals && is_i16 z) ks
  | _, _, _ => false
  end.
Definition hshape (w : hwrite) (k : hkind) : bool :=
  match w, k with
  | HW w, HKind k => wshape w k
  | HWClip, HKind (KEnum _) | HWI16ofF64, HKind KF64 | HWVersion, _ => true
  | _, _ => false
  end.
Definition hwtype (w : hwrite) : vtype :=
  match w with
  | HW w => wtype w
  | HWVersion | HWUuid => TStr
  | HWDate | HWDuration => TDouble
  | HWClip => TBool
  | HWI16ofF64 => TShort
  end.
Definition haccepts (r : hread) (t : vtype) : bool :=
  match r, t with
  | HR r, t => accepts r t
  | (HVersion | HUuid), TStr | HClip, TBool => true
  | _, _ => false
  end.

Section Check.
  Variable hs : hspec.
  Variable fs : list hfield.
  Variable v : version.
  Variable lost : list string.

  Definition hfield_of (s : string) : option hfield := find (fun f => String.eqb (hf_name f) s) fs.
  Definition hknown (s : string) (code : Z) : bool := match hfield_of s with Some f => existsb (Z.eqb code) (hf_codes f) | None => false end.
  Definition hk (s : string) : hkind := match hfield_of s with Some f => hf_kind f | None => HKind KAny end.
  Definition target (name : rstring) (code : Z) : option (string * hread) :=
    match assoc_str name (hs_setters hs) with Some x => harm_of x code | None => None end.

  Definition check_hpart (name : rstring) (x : Z * string * hwrite) : bool :=
    let '(c, s, w) := x in
    negb (c =? 0) && negb (c =? 9) &&
    match assoc_str name (hs_setters hs) with
    | None => hshape w (hk s)
    | Some x =>
        match harm_of x c with
        | None => false
        | Some (u, r) =>
            if String.eqb u s && hconv_ok (hknown s c) c r w (hk s) then true
            else memb u lost && hshape w (hk s) && haccepts r (hwtype w)
        end
    end.
  Definition st_never (cs : list cond) : bool := existsb (fun c => static c && negb (holds v true (fun _ => FInt 0) c)) cs.
  Definition check_hcmd (c : hcmd) : bool :=
    if st_never (hc_conds c) then true
    else negb (seqb (hc_name c) acadver) && forallb (check_hpart (hc_name c)) (hc_parts c).
  Definition part_hits (name : rstring) (s : string) (x : Z * string * hwrite) : bool :=
    let '(c, _, _) := x in match target name c with Some (u, _) => String.eqb u s | None => false end.
  Definition hits (s : string) (c : hcmd) : bool := existsb (part_hits (hc_name c) s) (hc_parts c).
  (** The same, with the targets computed once. *)
  Definition targets (c : hcmd) : list string :=
    flat_map (fun '(code, _, _) => match target (hc_name c) code with Some (u, _) => [u] | None => [] end) (hc_parts c).
  Lemma hits_targets s c : hits s c = memb s (targets c).
  Proof.
    unfold hits, targets. induction (hc_parts c) as [|[[code u] w] l IH]; [reflexivity|]. cbn [existsb flat_map]. rewrite IH.
    unfold part_hits at 1. destruct (target (hc_name c) code) as [[x r]|]; [|reflexivity]. cbn [app]. unfold memb. cbn [existsb].
    rewrite (String.eqb_sym x s). reflexivity.
  Qed.
  (** The command is executed, or the field has the default value (a single comparison with it). *)
  Definition sure (s : string) (d : fval) (c : cond) : bool :=
    (static c && holds v true (fun _ => FInt 0) c) ||
    match c with CNe [(u, x)] => String.eqb u s && simple_eqb x d | _ => false end.
  Definition in_windowb (w : option version * option version) : bool :=
    match fst w with Some m => (version_index m <=? version_index v)%N | None => true end &&
    match snd w with Some m => (version_index v <=? version_index m)%N | None => true end.
  Definition not_date (k : hkind) : bool := match k with HDateK => false | _ => true end.
  Definition quiet (s : string) (x : hcmd * list string * bool) : bool := if snd x then true else negb (memb s (snd (fst x))).
  Definition check_hfield (cmds : list (hcmd * list string * bool)) (f : hfield) : bool :=
    let s := hf_name f in
    if memb s lost then true
    else if existsb in_windowb (hf_windows f) then
      existsb (fun x =>
        if memb s (snd (fst x)) then
          let cs := hc_conds (fst (fst x)) in
          if forallb (fun c => static c && holds v true (fun _ => FInt 0) c) cs then true
          else negb (existsb (String.eqb s) (hs_random hs)) && not_date (hf_kind f) &&
               match assoc_slot s (hs_defaults hs) with Some d => forallb (sure s d) cs | None => false end
        else false) cmds
    else forallb (quiet s) cmds.
  (** The first command is always $ACADVER. *)
  Definition check_header : bool :=
    match hs_cmds hs with
    | mk_hcmd n [] [(1, s, HWVersion)] :: cmds =>
        seqb n acadver && String.eqb s "version" &&
        match assoc_str acadver (hs_setters hs) with Some (HOne 1 s HVersion) => String.eqb s "version" | _ => false end &&
        forallb check_hcmd cmds &&
        let plan := map (fun c => (c, targets c, st_never (hc_conds c))) cmds in
        forallb (fun f => if String.eqb (hf_name f) "version"
                          then (match hf_kind f with HVersionK => true | _ => false end) && forallb (quiet "version") plan &&
                               existsb in_windowb (hf_windows f) && (negb (version_eqb v R11) || memb "version" lost)
                          else check_hfield plan f) fs
    | _ => false
    end.
End Check.

(** * Conversions *)
Lemma in_windowb_ok v w : in_windowb v w = true <-> in_window v w.
Proof.
  unfold in_windowb, in_window. rewrite andb_true_iff. destruct w as [[a|] [b|]]; cbn [fst snd]; rewrite ?N.leb_le; intuition auto.
Qed.
Lemma hstored_ok v f : existsb (in_windowb v) (hf_windows f) = true <-> hstored v f.
Proof.
  rewrite existsb_exists. unfold hstored. split; intros (w & A & B); exists w; (split; [exact A|]); apply in_windowb_ok; exact B.
Qed.
Lemma hsame_refl k x : not_date k = true -> hsame k x x.
Proof. destruct k; try discriminate; intros _; constructor. Qed.

Lemma hconv_sound kn code r w k x : hconv_ok kn code r w k = true -> has_hkind k x -> (kn = true -> hfits k code x) ->
  exists val y, apply_hw w x = Ok val /\ apply_hr r (mk_pair code val) = Ok y /\ hsame k y x.
Proof.
  intros Hc Hk Hf. destruct k as [k| | | | |].
  - assert (Hf' : kn = true -> k <> KU32 -> forall z, x = FInt z -> int_fits code z).
    { intros Ht Hn z ->. specialize (Hf Ht). unfold hfits, fits in Hf. destruct k; try exact Hf. contradiction Hn. reflexivity. }
    destruct r as [r| | | | | | |vals d]; destruct w as [w| | | | | |]; try discriminate Hc; try (destruct r; discriminate Hc).
    + assert (Hc' : conv_ok kn code r w k = true) by (destruct r; exact Hc). destruct (conv_sound kn code r w k x Hc' Hk Hf') as (val & E & F). exists val, x. split; [exact E|]. split; [exact F|]. constructor.
    + destruct k; try discriminate Hc. destruct Hk as [z [-> Hz]]. cbn [hconv_ok] in Hc. rewrite forallb_forall in Hc. specialize (Hc z Hz).
      assert (z = 0 \/ z = 1) as [-> | ->] by lia; eexists; eexists; (split; [reflexivity|]); (split; [reflexivity|]); constructor.
    + destruct w; try discriminate Hc. destruct k; try discriminate Hc. destruct Hk as [z [-> Hz]].
      cbn [hconv_ok] in Hc. rewrite forallb_forall in Hc. specialize (Hc z Hz). apply andb_true_iff in Hc. destruct Hc as [H1 H2].
      eexists. eexists. split; [reflexivity|]. cbn [apply_hr assert_f64 p_value bind]. split; [reflexivity|].
      rewrite f64_to_int_of_Z; [unfold enum_of; rewrite H1; constructor|unfold is_i16 in H2; lia|unfold is_i16 in H2; lia].
  - destruct r as [r| | | | | | |vals d], w as [w| | | | | |]; try discriminate Hc; try (destruct w; discriminate Hc); try (destruct r; discriminate Hc).
  - destruct r as [r| | | | | | |vals d], w as [w| | | | | |]; try discriminate Hc; try (destruct w; discriminate Hc); try (destruct r; discriminate Hc). destruct Hk as (u & -> & Hu). eexists. eexists. split; [reflexivity|]. split; [reflexivity|].
    assert (E : as_uuid (uuid_string (Z.to_N u)) = Z.to_N u).
    { assert (Hu' : is_uuid (Z.to_N u) = true) by (unfold is_uuid; change (2 ^ 128)%N with (Z.to_N (2 ^ 128)); lia).
      apply uuid_string_plain in Hu'. apply as_uuid_accepted, accepted_plain, uuid_hyphenated, Hu'. }
    rewrite E. rewrite Z2N.id by lia. constructor.
  - destruct r as [r| | | | | | |vals d], w as [w| | | | | |]; try discriminate Hc; try (destruct w; discriminate Hc); try (destruct r; discriminate Hc). destruct Hk as (s & -> & Hs). destruct (date_roundtrip s Hs) as (y & E & R).
    exists (VDouble (as_double s)), (FInt y). split; [reflexivity|]. split; [cbn [apply_hr assert_f64 p_value bind]; rewrite E; reflexivity|].
    exists y, s. auto.
  - destruct r as [r| | | | | | |vals d], w as [w| | | | | |]; try discriminate Hc; try (destruct w; discriminate Hc); try (destruct r; discriminate Hc). destruct Hk as (n & -> & Hn). eexists. eexists. split; [reflexivity|]. split; [reflexivity|].
    rewrite duration_roundtrip by exact Hn. constructor.
  - destruct r as [r| | | | | | |vals d], w as [w| | | | | |]; try discriminate Hc; try (destruct w; discriminate Hc); try (destruct r; discriminate Hc). destruct r; try discriminate Hc.
    destruct Hk as (z & -> & Hz). eexists. eexists. split; [reflexivity|]. cbn [apply_hr apply_r assert_i16 p_value bind]. split; [reflexivity|].
    rewrite f64_to_int_of_Z; [constructor|lia|lia].
Qed.
Lemma hshape_sound w k x : hshape w k = true -> has_hkind k x -> exists val, apply_hw w x = Ok val /\ val_type val = hwtype w.
Proof.
  intros H Hk. destruct w as [w| | | | | |].
  - destruct k as [k| | | | |]; try discriminate H. destruct (shape_sound w k x H Hk) as [val E]. exists val. split; [exact E|]. exact (wtype_sound _ _ _ E).
  - eexists. split; reflexivity.
  - destruct k; discriminate H.
  - destruct k; discriminate H.
  - destruct k; discriminate H.
  - destruct k as [[]| | | | |]; try discriminate H. destruct Hk as [z [-> _]]. eexists. split; reflexivity.
  - destruct k as [[]| | | | |]; try discriminate H. destruct Hk as [z [-> _]]. eexists. split; reflexivity.
Qed.
Lemma haccepts_sound r p : haccepts r (val_type (p_value p)) = true -> exists y, apply_hr r p = Ok y.
Proof.
  destruct r; intros H; try (apply accepts_sound in H; exact H); destruct p as [c []]; try discriminate H; eexists; reflexivity.
Qed.

(** * Soundness *)
Fixpoint distinct (l : list string) : bool := match l with [] => true | x :: r => negb (memb x r) && distinct r end.
Definition names_ok (fs : list hfield) : bool := distinct (map hf_name fs).
Lemma hk_unique fs f : names_ok fs = true -> In f fs -> hk fs (hf_name f) = hf_kind f.
Proof.
  unfold hk, hfield_of, names_ok. induction fs as [|g fs IH]; intros H Hin; [destruct Hin|].
  cbn [map distinct] in H. apply andb_true_iff in H. destruct H as [H1 H2]. cbn [find]. destruct Hin as [->|Hin].
  - rewrite String.eqb_refl. reflexivity.
  - destruct (String.eqb (hf_name g) (hf_name f)) eqn:E; [|apply IH; assumption].
    apply String.eqb_eq in E. apply negb_true_iff in H1. unfold memb in H1. exfalso. rewrite <- not_true_iff_false in H1. apply H1.
    apply existsb_exists. exists (hf_name f). split; [apply in_map, Hin|]. rewrite E. apply String.eqb_refl.
Qed.
Section Sound.
  Variable hs : hspec.
  Variable fs : list hfield.
  Variable v : version.
  Variable lost : list string.
  Variable env h : store.
  Hypothesis Hty : h_typed fs h.
  Hypothesis Hnd : names_ok fs = true.
  Hypothesis Hv : h "version"%string = version_val v.
  Let dflt := header_default hs env.

  Lemma hk_sound s : has_hkind (hk fs s) (h s).
  Proof.
    unfold hk, hfield_of. destruct (find _ fs) as [f|] eqn:E; [|exact Logic.I].
    apply find_some in E. destruct E as [Hin E]. apply String.eqb_eq in E. subst s. apply (Hty f Hin).
  Qed.
  Lemma hknown_sound s code : hknown fs s code = true -> hfits (hk fs s) code (h s).
  Proof.
    unfold hknown, hk, hfield_of. destruct (find _ fs) as [f|] eqn:E; [|discriminate].
    apply find_some in E. destruct E as [Hin E]. apply String.eqb_eq in E. subst s. intros Hc.
    apply existsb_eqb_In in Hc. pose proof (proj2 (Hty f Hin)) as H. rewrite Forall_forall in H. apply H, Hc.
  Qed.

  (** One pair. *)
  Lemma part_sound name c s w st : check_hpart hs fs lost name (c, s, w) = true ->
    exists val st', apply_hw w (h s) = Ok val /\ set_header_value hs name (mk_pair c val) st = Ok st' /\ c <> 0 /\ c <> 9 /\
      forall x, memb x lost = false ->
        (part_hits hs name x (c, s, w) = true -> hsame (hk fs x) (st' x) (h x)) /\
        (part_hits hs name x (c, s, w) = false -> st' x = st x).
  Proof.
    unfold check_hpart. intros H. apply andb_true_iff in H. destruct H as [H0 H]. apply andb_true_iff in H0. destruct H0 as [H0 H9].
    assert (C0 : c <> 0) by lia. assert (C9 : c <> 9) by lia.
    unfold part_hits, target, set_header_value. cbn [p_code].
    destruct (assoc_str name (hs_setters hs)) as [y|].
    2:{ destruct (hshape_sound w (hk fs s) (h s) H (hk_sound s)) as (val & E & _). exists val, st.
        split; [exact E|]. split; [reflexivity|]. split; [exact C0|]. split; [exact C9|]. intros x _. split; [discriminate|reflexivity]. }
    destruct (harm_of y c) as [[u r]|]; [|discriminate H].
    destruct (String.eqb u s && hconv_ok (hknown fs s c) c r w (hk fs s)) eqn:B.
    - apply andb_true_iff in B. destruct B as [B1 B2]. apply String.eqb_eq in B1. subst u.
      destruct (hconv_sound _ _ _ _ _ _ B2 (hk_sound s) (hknown_sound s c)) as (val & z & E & F & G).
      exists val, (upd st s z). split; [exact E|]. rewrite F. split; [reflexivity|]. split; [exact C0|]. split; [exact C9|].
      intros x _. unfold upd. rewrite (String.eqb_sym s x). destruct (String.eqb x s) eqn:X.
      + apply String.eqb_eq in X. subst x. split; [intros _; exact G|discriminate].
      + split; [discriminate|reflexivity].
    - apply andb_true_iff in H. destruct H as [H H3]. apply andb_true_iff in H. destruct H as [H1 H2].
      destruct (hshape_sound w (hk fs s) (h s) H2 (hk_sound s)) as (val & E & T).
      destruct (haccepts_sound r (mk_pair c val)) as [z F]; [cbn [p_value]; rewrite T; exact H3|].
      exists val, (upd st u z). split; [exact E|]. rewrite F. split; [reflexivity|]. split; [exact C0|]. split; [exact C9|].
      intros x Hx. unfold upd. rewrite (String.eqb_sym u x). destruct (String.eqb x u) eqn:X.
      + apply String.eqb_eq in X. subst x. rewrite H1 in Hx. discriminate Hx.
      + split; [discriminate|reflexivity].
  Qed.
  Lemma parts_sound name : seqb name acadver = false -> forall l st, forallb (check_hpart hs fs lost name) l = true ->
    exists ps st', write_hparts h l = Ok ps /\
      (forall sw rest, header_loop hs sw (Some name) st (map Ok ps ++ rest) = header_loop hs sw (Some name) st' rest) /\
      forall x, memb x lost = false ->
        (existsb (part_hits hs name x) l = true -> hsame (hk fs x) (st' x) (h x)) /\
        (existsb (part_hits hs name x) l = false -> st' x = st x).
  Proof.
    intros Hn. induction l as [|[[c s] w] l IH]; intros st H.
    { exists [], st. split; [reflexivity|]. split; [reflexivity|]. intros x _. split; [discriminate|reflexivity]. }
    cbn [forallb] in H. apply andb_true_iff in H. destruct H as [H1 H2].
    destruct (part_sound name c s w st H1) as (val & st1 & E1 & F1 & C0 & C9 & G1).
    destruct (IH st1 H2) as (ps & st' & E2 & F2 & G2).
    exists (mk_pair c val :: ps), st'. split; [cbn [write_hparts]; rewrite E1; cbn [bind]; rewrite E2; reflexivity|]. split.
    - intros sw rest. cbn [map app header_loop p_code]. rewrite (proj2 (Z.eqb_neq _ _) C0), (proj2 (Z.eqb_neq _ _) C9), F1. cbn [bind].
      change (str "$ACADVER") with acadver. rewrite Hn. cbn [andb]. apply F2.
    - intros x Hx. destruct (G1 x Hx) as [A1 B1]. destruct (G2 x Hx) as [A2 B2]. cbn [existsb].
      destruct (existsb (part_hits hs name x) l).
      + split; [intros _; apply A2; reflexivity|rewrite orb_true_r; discriminate].
      + rewrite orb_false_r. rewrite (B2 eq_refl). split; assumption.
  Qed.

  Definition executed (c : hcmd) : bool := all_hold v true h (hc_conds c).
  Lemma static_holds c st : static c = true -> holds v true st c = holds v true (fun _ => FInt 0) c.
  Proof. destruct c; try discriminate; reflexivity. Qed.
  Lemma never_not_executed c : st_never v (hc_conds c) = true -> executed c = false.
  Proof.
    unfold st_never, executed, all_hold. intros H. apply existsb_exists in H. destruct H as (x & Hx & E). apply andb_true_iff in E. destruct E as [E1 E2].
    apply not_true_iff_false. intros F. rewrite forallb_forall in F. specialize (F x Hx). rewrite static_holds in F by exact E1. rewrite F in E2. discriminate E2.
  Qed.
  Lemma hcmds_sound : forall l cur st, forallb (check_hcmd hs fs v lost) l = true ->
    exists ps cur' st', write_hcmds h l = Ok ps /\
      (forall sw rest, header_loop hs sw cur st (map Ok ps ++ rest) = header_loop hs sw cur' st' rest) /\
      forall x, memb x lost = false ->
        (existsb (fun c => executed c && hits hs x c) l = true -> hsame (hk fs x) (st' x) (h x)) /\
        (existsb (fun c => executed c && hits hs x c) l = false -> st' x = st x).
  Proof.
    induction l as [|c l IH]; intros cur st H.
    { exists [], cur, st. split; [reflexivity|]. split; [reflexivity|]. intros x _. split; [discriminate|reflexivity]. }
    cbn [forallb] in H. apply andb_true_iff in H. destruct H as [H1 H2].
    cbn [write_hcmds existsb]. unfold write_hcmd. rewrite Hv, version_of_val. fold (executed c). destruct (executed c) eqn:X.
    - unfold check_hcmd in H1. destruct (st_never v (hc_conds c)) eqn:N; [rewrite (never_not_executed _ N) in X; discriminate X|].
      apply andb_true_iff in H1. destruct H1 as [Hn Hp]. apply negb_true_iff in Hn.
      destruct (parts_sound _ Hn _ st Hp) as (ps1 & st1 & E1 & F1 & G1).
      destruct (IH (Some (hc_name c)) st1 H2) as (ps2 & cur' & st' & E2 & F2 & G2).
      exists ((mk_pair 9 (VStr (hc_name c)) :: ps1) ++ ps2)%list, cur', st'. split; [rewrite E1; cbn [bind]; rewrite E2; reflexivity|]. split.
      + intros sw rest. rewrite map_app, <- app_assoc. cbn [map app header_loop p_code Z.eqb]. cbn [assert_string p_value bind].
        rewrite F1. apply F2.
      + intros x Hx. destruct (G1 x Hx) as [A1 B1]. destruct (G2 x Hx) as [A2 B2]. cbn [andb].
        destruct (existsb (fun c => executed c && hits hs x c) l).
        * split; [intros _; apply A2; reflexivity|rewrite orb_true_r; discriminate].
        * rewrite orb_false_r. rewrite (B2 eq_refl). split; assumption.
    - destruct (IH cur st H2) as (ps & cur' & st' & E & F & G). exists ps, cur', st'. cbn [bind]. rewrite E. split; [reflexivity|]. split; [exact F|exact G].
  Qed.

  Lemma quiet_sound s cmds : forallb (quiet s) (map (fun c => (c, targets hs c, st_never v (hc_conds c))) cmds) = true ->
    existsb (fun c => executed c && hits hs s c) cmds = false.
  Proof.
    intros Hf. apply not_true_iff_false. intros Hx. apply existsb_exists in Hx. destruct Hx as (c & Hcin & Hx). apply andb_true_iff in Hx. destruct Hx as [X1 X2].
    rewrite forallb_forall in Hf. specialize (Hf _ (in_map _ _ _ Hcin)). unfold quiet in Hf. cbn [fst snd] in Hf.
    destruct (st_never v (hc_conds c)) eqn:N; [rewrite (never_not_executed _ N) in X1; discriminate X1|].
    rewrite hits_targets in X2. rewrite X2 in Hf. discriminate Hf.
  Qed.
  (** The state after the first variable. *)
  Definition after_version : store := upd dflt "version" (version_val (version_from_safe (version_text v))).

  (** What the loop does with the written header, whatever the decoding. *)
  Theorem header_reads : check_header hs fs v lost = true ->
    exists p0 p1 ps st, write_header hs h = Ok (p0 :: p1 :: ps) /\
      p0 = mk_pair 9 (VStr acadver) /\ p1 = mk_pair 1 (VStr (version_text v)) /\
      (forall sw y rest, next_item rest -> (if version_leb R2007 v then sw y else y) = (map Ok ps ++ rest)%list ->
        read_header hs sw false env (Ok p0 :: Ok p1 :: y) = Ok (st, version_leb R2007 v, rest)) /\
      forall f, In f fs -> memb (hf_name f) lost = false -> hkept hs fs v env h st f.
  Proof.
    unfold check_header, write_header. destruct (hs_cmds hs) as [|[n cs l] cmds]; [discriminate|]. intros H.
    destruct cs; [|discriminate H]. destruct l as [|[[c s] w] l]; [discriminate H|]. destruct c as [|[]|]; try discriminate H. destruct w; try discriminate H.
    destruct l; [|discriminate H].
    apply andb_true_iff in H. destruct H as [H Hf]. apply andb_true_iff in H. destruct H as [H Hc]. apply andb_true_iff in H. destruct H as [H Ha].
    apply andb_true_iff in H. destruct H as [H1 H2]. apply seqb_eq in H1. apply String.eqb_eq in H2. subst n s.
    destruct (hcmds_sound cmds (Some acadver) after_version Hc) as (ps & cur' & st & E & F & G).
    exists (mk_pair 9 (VStr acadver)), (mk_pair 1 (VStr (version_text v))), ps, st. split; [|split; [reflexivity|split; [reflexivity|]]].
    { cbn [write_hcmds]. unfold write_hcmd. cbn [hc_conds hc_name hc_parts all_hold forallb write_hparts apply_hw]. rewrite Hv, version_of_val. cbn [bind].
      rewrite E. reflexivity. }
    split.
    - intros sw y rest Hr Hsw.
      assert (T : forall sw, header_loop hs sw (Some acadver) after_version (map Ok ps ++ rest) =
                             Ok (st, match sw with Some _ => false | None => true end, rest)).
      { intros sw'. rewrite F. destruct Hr as (q & r & -> & Hq). destruct sw'; cbn [header_loop]; rewrite Hq; reflexivity. }
      unfold read_header. cbn [map app header_loop p_code Z.eqb Pos.eqb]. cbn [assert_string p_value bind]. fold acadver.
      assert (S : set_header_value hs acadver (mk_pair 1 (VStr (version_text v))) (header_default hs env) = Ok after_version).
      { unfold set_header_value. destruct (assoc_str acadver (hs_setters hs)) as [[c u r|l|u]|]; try discriminate Ha.
        destruct c as [|[]|]; try discriminate Ha. destruct r; try discriminate Ha. apply String.eqb_eq in Ha. subst u. reflexivity. }
      rewrite S. cbn [bind]. rewrite seqb_refl. cbn [andb].
      replace (version_of (after_version "version"%string)) with (version_from_safe (version_text v)) by (unfold after_version, upd; cbn [String.eqb]; symmetry; apply version_of_val).
      replace (version_leb R2007 (version_from_safe (version_text v))) with (version_leb R2007 v) by (destruct v; reflexivity).
      destruct (version_leb R2007 v); rewrite Hsw, T; reflexivity.
    - intros f Hin Hl. destruct (G _ Hl) as [GA GB]. clear G. rewrite forallb_forall in Hf. specialize (Hf f Hin).
      destruct (String.eqb (hf_name f) "version") eqn:Ev.
      { apply String.eqb_eq in Ev. rewrite Ev in *. apply andb_true_iff in Hf. destruct Hf as [Hf H11]. apply andb_true_iff in Hf. destruct Hf as [Hf Hw].
        apply andb_true_iff in Hf. destruct Hf as [Hkd Hf]. split; [|intros N; contradiction N; apply hstored_ok; exact Hw].
        intros _. assert (Z : st "version"%string = version_val v).
        { rewrite GB.
          - unfold after_version, upd. cbn [String.eqb]. rewrite Hl, orb_false_r in H11. destruct v; try reflexivity. discriminate H11.
          - apply quiet_sound, Hf. }
        rewrite Ev, Z, Hv. destruct (hf_kind f); try discriminate Hkd. constructor. }
      rewrite (hk_unique fs f Hnd Hin) in GA.
      assert (A0 : after_version (hf_name f) = header_default hs env (hf_name f)) by (unfold after_version, upd; rewrite Ev; reflexivity).
      unfold check_hfield in Hf. rewrite Hl in Hf. destruct (existsb (in_windowb v) (hf_windows f)) eqn:W.
      + split; [intros _|intros N; contradiction N; apply hstored_ok; exact W].
        apply existsb_exists in Hf. destruct Hf as (x & Hcin & Hx). apply in_map_iff in Hcin. destruct Hcin as (c & <- & Hcin). cbn [fst snd] in Hx.
        rewrite <- hits_targets in Hx. destruct (hits hs (hf_name f) c) eqn:Hh; [|discriminate Hx]. cbv zeta in Hx.
        destruct (existsb (fun c => executed c && hits hs (hf_name f) c) cmds) eqn:X; [apply GA; reflexivity|].
        assert (Nx : executed c = false).
        { apply not_true_iff_false. intros Y. rewrite <- not_true_iff_false in X. apply X. apply existsb_exists. exists c. rewrite Y, Hh. auto. }
        destruct (forallb (fun c => static c && holds v true (fun _ => FInt 0) c) (hc_conds c)) eqn:A.
        { exfalso. rewrite <- not_true_iff_false in Nx. apply Nx. unfold executed, all_hold. rewrite forallb_forall in *. intros y Hy.
          specialize (A y Hy). apply andb_true_iff in A. destruct A as [A1 A2]. rewrite static_holds by exact A1. exact A2. }
        apply andb_true_iff in Hx. destruct Hx as [Hx H3]. apply andb_true_iff in Hx. destruct Hx as [Hx1 Hx2].
        apply negb_true_iff in Hx1. destruct (assoc_slot (hf_name f) (hs_defaults hs)) as [d|] eqn:Ed; [|discriminate H3].
        assert (D : differs (h (hf_name f)) d = false).
        { unfold executed, all_hold in Nx. rewrite <- not_true_iff_false, forallb_forall in Nx. rewrite forallb_forall in H3.
          destruct (differs (h (hf_name f)) d) eqn:D; [|reflexivity]. exfalso. apply Nx. intros y Hy. specialize (H3 y Hy).
          unfold sure in H3. apply orb_true_iff in H3. destruct H3 as [H3|H3].
          - apply andb_true_iff in H3. destruct H3 as [A1 A2]. rewrite static_holds by exact A1. exact A2.
          - destruct y as [| | |[|[u x] []]| | |]; try discriminate H3. apply andb_true_iff in H3. destruct H3 as [A1 A2]. apply String.eqb_eq in A1.
            apply simple_eqb_eq in A2. subst u x. cbn [holds existsb]. rewrite D. reflexivity. }
        rewrite (GB eq_refl), A0. unfold header_default. rewrite Hx1, Ed.
        apply differs_same in D. destruct (hf_kind f); try discriminate Hx2; exact D.
      + split; [intros N; apply hstored_ok in N; rewrite N in W; discriminate W|]. intros _. rewrite GB; [exact A0|].
        apply quiet_sound, Hf.
  Qed.
End Sound.

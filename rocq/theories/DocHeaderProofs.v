(** The header follows the table of DocSpec.v. *)
From Verif Require Import Base TextProofs F64Model CodePairModel CodePairSpec CodePairProofs VersionModel StreamModel SpecModel SpecSpec SpecCheck SpecProofs HeaderModel HeaderData DocSpec DocProofs.
Open Scope string_scope.
Open Scope list_scope.
Open Scope Z_scope.
Set Default Goal Selector "!".

Notation hrow := (string * Z * string * meaning * version)%type.
Definition setter_slots (x : hsetter) : list (Z * string) :=
  match x with
  | HOne c s _ => [(c, s)]
  | HMany arms => map (fun a => match a with (c, s, _) => (c, s) end) arms
  | HPoint s => [(10, (s ++ ".x")%string); (20, (s ++ ".y")%string); (30, (s ++ ".z")%string)]
  end.
(** The variable's value under the code is the field; no other variable or code sets the field. *)
Definition hrow_read (hs : hspec) (e : hrow) : bool :=
  let '(n, c, f, m, _) := e in
  match assoc_str (str n) (hs_setters hs) with
  | Some x => match harm_of x c with Some (s, HR r) => String.eqb s f && reads_as m r | _ => false end
  | None => false
  end &&
  forallb (fun y => forallb (fun z => negb (String.eqb (snd z) f) || (seqb (fst y) (str n) && (fst z =? c))) (setter_slots (snd y))) (hs_setters hs) &&
  negb (c =? 9).
Definition hpart_ok (e : hrow) (x : Z * string * hwrite) : bool :=
  let '(n, c, f, m, _) := e in
  let '(z, s, w) := x in
  negb (z =? 9) && (negb (z =? c) || String.eqb s f && match w, expected_type c with HW w, Some t => writes_as m w t | _, _ => false end).
Definition hrow_written (hs : hspec) (e : hrow) : bool :=
  let '(n, c, f, m, v) := e in
  forallb (fun k => if seqb (hc_name k) (str n) then forallb (hpart_ok e) (hc_parts k) else forallb (fun x => negb (fst (fst x) =? 9)) (hc_parts k)) (hs_cmds hs) &&
  existsb (fun k => seqb (hc_name k) (str n) && forallb (fun d => match d with CMin a => version_leb a v | _ => false end) (hc_conds k) && existsb (fun x => fst (fst x) =? c) (hc_parts k)) (hs_cmds hs).

Lemma assoc_listed {A} s (l : list (rstring * A)) x : assoc_str s l = Some x -> In (s, x) l.
Proof.
  induction l as [|[t y] l IH]; cbn [assoc_str]; [discriminate|]. destruct (seqb s t) eqn:H; [|right; apply IH; assumption]. apply seqb_eq in H as ->. intros K. injection K as ->. left. reflexivity.
Qed.
Lemma harm_slots x c s r : harm_of x c = Some (s, r) -> In (c, s) (setter_slots x).
Proof.
  destruct x as [c0 s0 r0|arms|s0]; cbn [harm_of setter_slots].
  - destruct (c0 =? c) eqn:E; [|discriminate]. intros H. injection H as -> ->. left. f_equal. lia.
  - intros H. apply in_map_iff. induction arms as [|[[c1 s1] r1] arms IH]; cbn [find_harm] in H; [discriminate H|]. destruct (c1 =? c) eqn:E.
    + injection H as -> ->. exists (c1, s, r). split; [f_equal; lia|left; reflexivity].
    + destruct (IH H) as (y & E1 & Hin). exists y. split; [exact E1|right; exact Hin].
  - unfold point_slot. destruct (c =? 10) eqn:E1; [|destruct (c =? 20) eqn:E2; [|destruct (c =? 30) eqn:E3; [|discriminate]]]; cbn [option_map]; intros H; injection H as <- _; cbn [In].
    + left. f_equal. lia.
    + right. left. f_equal. lia.
    + right. right. left. f_equal. lia.
Qed.
Section Row.
  Variable hs : hspec.
  Variable e : hrow.
  Let n := let '(n, _, _, _, _) := e in n.
  Let c := let '(_, c, _, _, _) := e in c.
  Let f := let '(_, _, f, _, _) := e in f.
  Let m := let '(_, _, _, m, _) := e in m.
  Hypothesis R : hrow_read hs e = true.
  Variable d : fval.
  Definition hinv (h : store) (o : option value) : Prop := match o with None => h f = d | Some v => forall x, understood m v = Some x -> h f = x end.

  Lemma set_header_row name p h h' o : set_header_value hs name p h = Ok h' -> hinv h o -> hinv h' (if seqb name (str n) && (p_code p =? c) then Some (p_value p) else o).
  Proof.
    intros H I. unfold n, c, hinv, f, m in *. destruct e as [[[[n0 c0] f0] m0] v0]. clear n c f m. unfold hrow_read in R. apply andb_true_iff in R as [R1 R3]. apply andb_true_iff in R1 as [R1 R2]. unfold set_header_value in H.
    destruct (seqb name (str n0) && (p_code p =? c0)) eqn:T.
    - apply andb_true_iff in T as [T1 T2]. apply seqb_eq in T1 as ->. assert (p_code p = c0) as T by lia. rewrite T in H. intros x U. destruct (assoc_str (str n0) (hs_setters hs)) as [y|]; [|discriminate R1].
      destruct (harm_of y c0) as [[s r]|]; [|discriminate R1]. destruct r as [r| | | | | | |]; try discriminate R1. apply andb_true_iff in R1 as [R1 R4]. apply String.eqb_eq in R1 as ->. cbn [apply_hr] in H.
      destruct (apply_r r p) as [v|] eqn:A; cbn [bind] in H; [|discriminate H]. injection H as <-. unfold upd. rewrite String.eqb_refl. exact (reads_as_sound _ _ _ _ _ R4 U A).
    - assert (h' f0 = h f0) as ->; [|exact I]. clear R1. destruct (assoc_str name (hs_setters hs)) as [y|] eqn:A; [|injection H as <-; reflexivity]. destruct (harm_of y (p_code p)) as [[s r]|] eqn:B; [|discriminate H].
      destruct (apply_hr r p) as [v|]; cbn [bind] in H; [|discriminate H]. injection H as <-. unfold upd. destruct (String.eqb f0 s) eqn:F; [|reflexivity]. apply String.eqb_eq in F as ->.
      rewrite forallb_forall in R2. pose proof (R2 _ (assoc_listed _ _ _ A)) as K. cbn [snd fst] in K. rewrite forallb_forall in K. pose proof (K _ (harm_slots _ _ _ _ B)) as K2. cbn [snd fst] in K2.
      rewrite String.eqb_refl in K2. cbn [negb orb] in K2. rewrite K2 in T. discriminate T.
  Qed.
  Lemma loop_row nx rest : p_code nx = 0 -> forall ps cur h o h' u' r, Forall (fun p => p_code p <> 0) ps -> hinv h o ->
    header_loop hs None cur h (map Ok ps ++ Ok nx :: rest) = Ok (h', u', r) -> r = Ok nx :: rest /\ hinv h' (variable_value (str n) c cur o ps).
  Proof.
    intros Z. induction ps as [|p ps IH]; intros cur h o h' u' r P I H; cbn [header_loop map app] in H.
    - rewrite Z in H. change (0 =? 0) with true in H. cbn iota in H. injection H as <- _ <-. split; [reflexivity|exact I].
    - inversion P as [|q l P0 P1]; subst q l. destruct (p_code p =? 0) eqn:E0; [lia|]. cbn [variable_value]. destruct (p_code p =? 9) eqn:E9.
      + unfold assert_string in H. destruct (p_value p) as [z|z|z|z|dd|s|b]; cbn [bind] in H; try discriminate H. exact (IH _ _ _ _ _ _ P1 I H).
      + destruct cur as [name|]; [|discriminate H]. destruct (set_header_value hs name p h) as [h1|] eqn:S1; cbn [bind] in H; [|discriminate H].
        pose proof (set_header_row _ _ _ _ _ S1 I) as I1. destruct (_ && _) in H; exact (IH _ _ _ _ _ _ P1 I1 H).
  Qed.
  Lemma loop_row_switch sw nx rest : p_code nx = 0 -> forall ps cur h o h' u' r, Forall (fun p => p_code p <> 0) ps -> hinv h o ->
    (forall l, sw (map Ok l ++ Ok nx :: rest) = map Ok l ++ Ok nx :: rest) ->
    header_loop hs (Some (fun h r => header_loop hs None (Some (str "$ACADVER")) h (sw r))) cur h (map Ok ps ++ Ok nx :: rest) = Ok (h', u', r) ->
    r = Ok nx :: rest /\ hinv h' (variable_value (str n) c cur o ps).
  Proof.
    intros Z. induction ps as [|p ps IH]; intros cur h o h' u' r P I W H; cbn [header_loop map app] in H.
    - rewrite Z in H. change (0 =? 0) with true in H. cbn iota in H. injection H as <- _ <-. split; [reflexivity|exact I].
    - inversion P as [|q l P0 P1]; subst q l. destruct (p_code p =? 0) eqn:E0; [lia|]. cbn [variable_value]. destruct (p_code p =? 9) eqn:E9.
      + unfold assert_string in H. destruct (p_value p) as [z|z|z|z|dd|s|b]; cbn [bind] in H; try discriminate H. exact (IH _ _ _ _ _ _ P1 I W H).
      + destruct cur as [name|]; [|discriminate H]. destruct (set_header_value hs name p h) as [h1|] eqn:S1; cbn [bind] in H; [|discriminate H].
        pose proof (set_header_row _ _ _ _ _ S1 I) as I1. destruct (seqb name (str "$ACADVER") && _) eqn:Q in H; [|exact (IH _ _ _ _ _ _ P1 I1 W H)].
        apply andb_true_iff in Q as [Q _]. apply seqb_eq in Q as ->. rewrite W in H. exact (loop_row nx rest Z _ _ _ _ _ _ _ P1 I1 H).
  Qed.
End Row.
Lemma header_row_read hs n c f m v sw u env ps nx rest h' u' r : hrow_read hs (n, c, f, m, v) = true -> p_code nx = 0 -> Forall (fun p => p_code p <> 0) ps ->
  (u = true \/ forall l, sw (map Ok l ++ Ok nx :: rest) = map Ok l ++ Ok nx :: rest) ->
  read_header hs sw u env (map Ok ps ++ Ok nx :: rest) = Ok (h', u', r) -> r = Ok nx :: rest /\
  match variable_value (str n) c None None ps with None => h' f = header_default hs env f | Some v => forall x, understood m v = Some x -> h' f = x end.
Proof.
  intros R Z P W H. unfold read_header in H. destruct u.
  - exact (loop_row hs (n, c, f, m, v) R (header_default hs env f) nx rest Z ps None _ None h' u' r P eq_refl H).
  - destruct W as [W|W]; [discriminate W|]. exact (loop_row_switch hs (n, c, f, m, v) R (header_default hs env f) sw nx rest Z ps None _ None h' u' r P eq_refl W H).
Qed.

(** * Writing *)
Lemma hparts_values h (n : rstring) c cur : forall l ps, write_hparts h l = Ok ps -> forall o, forallb (fun x => negb (fst (fst x) =? 9)) l = true ->
  forall qs, exists o', variable_value n c (Some cur) o (ps ++ qs) = variable_value n c (Some cur) o' qs /\
  (seqb cur n = false -> o' = o) /\ (o' = o \/ exists s w v, In (c, s, w) l /\ o' = Some v /\ apply_hw w (h s) = Ok v) /\
  (seqb cur n = true -> existsb (fun x => fst (fst x) =? c) l = true -> exists s w v, In (c, s, w) l /\ o' = Some v /\ apply_hw w (h s) = Ok v).
Proof.
  induction l as [|[[z s] w] l IH]; intros ps H o N qs; cbn [write_hparts] in H.
  - injection H as <-. exists o. cbn [app existsb]. repeat split; [left; reflexivity|discriminate].
  - destruct (apply_hw w (h s)) as [x|] eqn:A; cbn [bind] in H; [|discriminate H]. destruct (write_hparts h l) as [rs|]; cbn [bind] in H; [|discriminate H]. injection H as <-.
    cbn [forallb fst] in N. apply andb_true_iff in N as [N1 N2]. cbn [app variable_value p_code p_value]. destruct (z =? 9); [discriminate N1|].
    destruct (IH rs eq_refl (if seqb cur n && (z =? c) then Some x else o) N2 qs) as (o' & V & K1 & K2 & K3). exists o'. rewrite V. split; [reflexivity|].
    assert (forall P, (exists s w v, In (c, s, w) l /\ o' = Some v /\ P s w v) -> exists s0 w0 v, In (c, s0, w0) ((z, s, w) :: l) /\ o' = Some v /\ P s0 w0 v) as Up.
    { intros P (s0 & w0 & v & Hin & E & Q). exists s0, w0, v. split; [right; exact Hin|split; assumption]. }
    destruct (seqb cur n) eqn:Q; cbn [andb] in *.
    + destruct (z =? c) eqn:C.
      * assert (exists s0 w0 v, In (c, s0, w0) ((z, s, w) :: l) /\ o' = Some v /\ apply_hw w0 (h s0) = Ok v) as X.
        { destruct K2 as [->|K2]; [|exact (Up _ K2)]. exists s, w, x. split; [left; f_equal; f_equal; lia|split; [reflexivity|exact A]]. }
        split; [discriminate|]. split; [right; exact X|intros _ _; exact X].
      * split; [discriminate|]. split; [destruct K2 as [K2|K2]; [left; exact K2|right; exact (Up _ K2)]|]. intros _ Y. cbn [existsb fst] in Y. rewrite C in Y. exact (Up _ (K3 eq_refl Y)).
    + split; [exact K1|]. split; [left; exact (K1 eq_refl)|discriminate].
Qed.
Lemma hcmds_values h n c f m ver : version_leb ver (version_of (h "version")) = true -> expressible m c (h f) -> c <> 9 -> forall l ps, write_hcmds h l = Ok ps ->
  forallb (fun k => if seqb (hc_name k) (str n) then forallb (hpart_ok (n, c, f, m, ver)) (hc_parts k) else forallb (fun x => negb (fst (fst x) =? 9)) (hc_parts k)) l = true ->
  forall cur o, (forall v, o = Some v -> understood m v = Some (h f)) ->
  (forall v, variable_value (str n) c cur o ps = Some v -> understood m v = Some (h f)) /\
  (o <> None \/ existsb (fun k => seqb (hc_name k) (str n) && forallb (fun d => match d with CMin a => version_leb a ver | _ => false end) (hc_conds k) && existsb (fun x => fst (fst x) =? c) (hc_parts k)) l = true ->
   variable_value (str n) c cur o ps <> None).
Proof.
  intros V X N9. induction l as [|k l IH]; intros ps H C cur o I; cbn [write_hcmds] in H.
  - injection H as <-. cbn [variable_value existsb]. split; [exact I|]. intros [K|K]; [exact K|discriminate K].
  - destruct (write_hcmd h k) as [a|] eqn:A; cbn [bind] in H; [|discriminate H]. destruct (write_hcmds h l) as [b|]; cbn [bind] in H; [|discriminate H]. injection H as <-.
    cbn [forallb] in C. apply andb_true_iff in C as [C1 C2]. unfold write_hcmd in A. destruct (all_hold _ _ _ _) eqn:D.
    + destruct (write_hparts h (hc_parts k)) as [qs|] eqn:Q; cbn [bind] in A; [|discriminate A]. injection A as <-. cbn [app variable_value p_code p_value]. change (9 =? 9) with true. cbn iota.
      assert (forallb (fun x => negb (fst (fst x) =? 9)) (hc_parts k) = true) as N.
      { destruct (seqb (hc_name k) (str n)); [|exact C1]. rewrite forallb_forall in C1 |- *. intros [[z s] w] Hx. specialize (C1 _ Hx). unfold hpart_ok in C1. apply andb_true_iff in C1 as [C1 _]. exact C1. }
      destruct (hparts_values h (str n) c (hc_name k) _ _ Q o N b) as (o' & E & K1 & K2 & K3). rewrite E.
      assert (forall s w v, seqb (hc_name k) (str n) = true -> In (c, s, w) (hc_parts k) -> apply_hw w (h s) = Ok v -> understood m v = Some (h f)) as U.
      { intros s w v Hn Hin Hv. rewrite Hn in C1. rewrite forallb_forall in C1. specialize (C1 _ Hin). unfold hpart_ok in C1. apply andb_true_iff in C1 as [_ C1]. rewrite Z.eqb_refl in C1. cbn [negb orb] in C1.
        apply andb_true_iff in C1 as [F1 F2]. apply String.eqb_eq in F1 as ->. destruct w as [w| | | | | |]; try discriminate F2. destruct (expected_type c) as [t|] eqn:T; [|discriminate F2].
        refine (writes_as_sound _ _ _ _ _ X _ Hv). exists t. split; assumption. }
      assert (forall v, o' = Some v -> understood m v = Some (h f)) as I'.
      { intros v Ev. destruct (seqb (hc_name k) (str n)) eqn:Hn; [|rewrite (K1 eq_refl) in Ev; exact (I v Ev)].
        destruct K2 as [->|(s & w & v1 & Hin & E1 & A1)]; [exact (I v Ev)|]. rewrite E1 in Ev. injection Ev as <-. exact (U _ _ _ eq_refl Hin A1). }
      destruct (IH b eq_refl C2 (Some (hc_name k)) o' I') as [J1 J2]. split; [exact J1|]. intros [K|K]; apply J2.
      * left. destruct K2 as [->|(s & w & v1 & Hin & E1 & A1)]; [exact K|]. rewrite E1. discriminate.
      * cbn [existsb] in K. apply orb_true_iff in K as [K|K]; [|right; exact K]. left. apply andb_true_iff in K as [K K4]. apply andb_true_iff in K as [K5 K6].
        destruct (K3 K5 K4) as (s & w & v1 & _ & E1 & _). rewrite E1. discriminate.
    + injection A as <-. cbn [app]. destruct (IH b eq_refl C2 cur o I) as [J1 J2]. split; [exact J1|]. intros [K|K]; apply J2; [left; exact K|].
      cbn [existsb] in K. apply orb_true_iff in K as [K|K]; [|right; exact K]. exfalso. apply andb_true_iff in K as [K K4]. apply andb_true_iff in K as [K5 K6].
      assert (all_hold (version_of (h "version")) true h (hc_conds k) = true) as T; [|rewrite T in D; discriminate D].
      apply forallb_forall. intros x Hx. rewrite forallb_forall in K6. specialize (K6 x Hx). destruct x; try discriminate K6. cbn [SpecModel.holds]. exact (version_leb_trans _ _ _ K6 V).
Qed.
Lemma header_row_written hs n c f m ver h ps : hrow_written hs (n, c, f, m, ver) = true -> version_leb ver (version_of (h "version")) = true -> expressible m c (h f) -> c <> 9 ->
  write_header hs h = Ok ps -> exists v, variable_value (str n) c None None ps = Some v /\ understood m v = Some (h f).
Proof.
  intros W V X N H. unfold hrow_written in W. apply andb_true_iff in W as [W1 W2]. destruct (hcmds_values h n c f m ver V X N _ _ H W1 None None) as [J1 J2]; [discriminate|].
  specialize (J2 (or_intror W2)). destruct (variable_value (str n) c None None ps) as [v|]; [|destruct (J2 eq_refl)]. exists v. split; [reflexivity|exact (J1 v eq_refl)].
Qed.

(** Documented variables are accepted. *)
Definition hrow_typed (hs : hspec) (e : hrow) : bool :=
  let '(n, c, f, m, v) := e in
  match assoc_str (str n) (hs_setters hs) with
  | Some x => match harm_of x c, expected_type c with Some (_, HR r), Some t => conv_type r t | _, _ => false end
  | None => false
  end && negb (c =? 0) && negb (seqb (str n) (str "$ACADVER")).
Lemma variable_accepted hs n c f m ver p x h : hrow_read hs (n, c, f, m, ver) = true -> hrow_typed hs (n, c, f, m, ver) = true -> typed p -> p_code p = c -> understood m (p_value p) = Some x ->
  exists h', set_header_value hs (str n) p h = Ok h'.
Proof.
  intros R T Ty C U. unfold hrow_read in R. unfold hrow_typed in T. apply andb_true_iff in R as [R _]. apply andb_true_iff in R as [R _]. apply andb_true_iff in T as [T _]. apply andb_true_iff in T as [T _].
  unfold set_header_value. destruct (assoc_str (str n) (hs_setters hs)) as [y|]; [|discriminate R]. rewrite C. destruct (harm_of y c) as [[s r]|]; [|discriminate R]. destruct r as [r| | | | | | |]; try discriminate R.
  apply andb_true_iff in R as [_ R]. rewrite <- C, (typed_expected _ Ty) in T. cbn [apply_hr]. destruct (reads_value _ _ _ _ T R U) as (z & ->). cbn [bind]. eauto.
Qed.
Lemma header_accepts hs (vars : list hrow) sw : forallb (fun e => hrow_read hs e && hrow_typed hs e) vars = true -> forall nx rest l cur h, p_code nx = 0 ->
  Forall (fun x => typed (mk_pair (snd (fst x)) (snd x)) /\ exists f m v y, In (fst (fst x), snd (fst x), f, m, v) vars /\ understood m (snd x) = Some y) l ->
  exists h', header_loop hs sw cur h (map Ok (flat_map (fun x => [mk_pair 9 (VStr (str (fst (fst x)))); mk_pair (snd (fst x)) (snd x)]) l) ++ Ok nx :: rest) =
    Ok (h', match sw with Some _ => false | None => true end, Ok nx :: rest).
Proof.
  intros C nx rest. induction l as [|[[n c] v] l IH]; intros cur h Z F; cbn [flat_map map app header_loop].
  - rewrite Z. change (0 =? 0) with true. cbn iota. eauto.
  - inversion F as [|q k (Ty & f & m & ver & y & Hin & U) F2]; subst q k. cbn [fst snd] in *. cbn [p_code p_value assert_string bind]. change (9 =? 0) with false. change (9 =? 9) with true. cbn iota.
    rewrite forallb_forall in C. pose proof (C _ Hin) as D. apply andb_true_iff in D as [D1 D2].
    destruct (variable_accepted hs n c f m ver (mk_pair c v) y h D1 D2 Ty eq_refl U) as (h1 & E). rewrite E. cbn [bind]. unfold hrow_typed in D2. apply andb_true_iff in D2 as [D2 D3]. apply andb_true_iff in D2 as [_ D2].
    unfold hrow_read in D1. apply andb_true_iff in D1 as [_ D1]. apply negb_true_iff in D1, D2, D3. rewrite D1, D2, D3. cbn [andb]. apply IH; [exact Z|exact F2].
Qed.
Lemma variables_checked : forallb (fun e => hrow_read header_spec e && hrow_written header_spec e && hrow_typed header_spec e) documented_variables = true.
Proof. vm_compute. reflexivity. Qed.

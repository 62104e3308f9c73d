(** Which types are written again as they were: a check, and that it is sound. *)
From Verif Require Import Base TextProofs F64Model CodePairModel VersionModel ExtDataModel SpecModel SpecSpec SpecCheck SpecProofs EntityData ObjectData TableData StableSpec.
Open Scope string_scope.
Open Scope list_scope.
Open Scope Z_scope.
Set Default Goal Selector "!".

(** * The check *)
Definition static_off (v : version) (wh : bool) (cs : list cond) : bool :=
  existsb (fun c => match c with CMin m => negb (version_leb m v) | CMax m => negb (version_leb v m) | CHandles => negb wh | _ => false end) cs.
Definition cond_slots (c : cond) : list string := match c with CNe l => map fst l | CTrue s | CNonEmpty s | CMask s _ _ => [s] | _ => [] end.
Definition win_implied (v : version) (wh : bool) (cs : list cond) (w : window) : bool :=
  match w_min w with Some m => version_leb m v | None => true end && match w_max w with Some m => version_leb v m | None => true end &&
  (negb (w_handles w) || wh) && match w_when w with Some s => existsb (fun c => match c with CTrue u => String.eqb s u | _ => false end) cs | None => true end.
Definition slot_kept (t : itype) (lost : list string) (v : version) (wh : bool) (cs : list cond) (test : field -> bool) (s : string) : bool :=
  negb (memb s lost) && existsb (fun f => if String.eqb (f_name f) s then f_public f && existsb (win_implied v wh cs) (f_windows f) && test f else false) (it_fields t).
Definition whole_comps (v : version) (f : field) : bool := forallb (fun c => version_leb (snd (fst c)) v) (f_comps f).
Definition part_blind (v : version) (j : nat) (b : part) : bool :=
  existsb (fun c => match c with RcMin m => negb (version_leb m v) | _ => false end) (pt_conds b) ||
  (negb (Nat.eqb (pt_comp b) j) && forallb (fun c => match c with RcNe i _ => negb (Nat.eqb i j) | _ => true end) (pt_conds b)).
Definition parts_blind (v : version) (body : list part) (f : field) : bool :=
  forallb (fun c => version_leb (snd (fst c)) v || (forallb (part_blind v (fst (fst c))) body && match f_kind f with KList (KRec ks) => Nat.ltb (fst (fst c)) (length ks) | _ => false end)) (f_comps f).
Definition again_cmd (t : itype) (lost : list string) (v : version) (wh : bool) (c : cmd) : bool :=
  let cs := cmd_conds c in
  let strict := slot_kept t lost v wh cs (whole_comps v) in
  static_off v wh cs ||
  (forallb (fun c => match c with CTrue u => slot_kept t lost v wh [] (whole_comps v) u | _ => true end) cs && forallb strict (flat_map cond_slots cs) &&
   match c with
   | WPair _ _ s _ | WEach _ _ s _ | WPick _ _ s _ | WExts _ s | WLen _ _ s LUtf8 => strict s
   | WConst _ _ => true
   | WLen _ _ s _ => slot_kept t lost v wh cs (fun _ => true) s
   | WEachRec _ s body => slot_kept t lost v wh cs (parts_blind v body) s
   | WMulti _ _ ss _ => forallb strict ss
   | WXdatas _ s => negb (version_leb R2000 v) || strict s
   end).
Definition again (t : itype) (lost : list string) (v : version) : bool := forallb (fun wh => forallb (again_cmd t lost v wh) (sp_cmds (it_spec t))) [true; false].

(** * Same values are written the same *)
Definition same_write (a b : res (list pair)) : Prop := forall ps, a = Ok ps -> exists qs, b = Ok qs /\ Forall2 same_pair ps qs.
Definition same_write1 (a b : res pair) : Prop := forall p, a = Ok p -> exists q, b = Ok q /\ same_pair p q.
Lemma same_pair_refl p : same_pair p p.
Proof. split; [reflexivity|constructor]. Qed.
Lemma same_pairs_refl ps : Forall2 same_pair ps ps.
Proof. induction ps; constructor; [apply same_pair_refl|assumption]. Qed.
Lemma same_write_refl a : same_write a a.
Proof. intros ps H. exists ps. split; [exact H|apply same_pairs_refl]. Qed.
Lemma zero_test d : (d mod 2 ^ 63 = 0)%N -> f64_zero d = true.
Proof. unfold f64_zero. intros H. apply N.eqb_eq, H. Qed.
Lemma zero_abs d : (d mod 2 ^ 63 = 0)%N -> f64_abs_bits d = 0.
Proof. unfold f64_abs_bits. intros H. zify. lia. Qed.
Lemma zero_finite d : (d mod 2 ^ 63 = 0)%N -> f64_finite d = true /\ f64_is_nan d = false.
Proof. intros H. assert (F : f64_finite d = true) by (unfold f64_finite, f64_exp; rewrite (zero_abs d H); reflexivity). split; [exact F|]. unfold f64_is_nan. rewrite F. reflexivity. Qed.
Lemma zero_int lo hi d : (d mod 2 ^ 63 = 0)%N -> f64_to_int_sat lo hi d = Z.max lo (Z.min hi 0).
Proof.
  intros H. unfold f64_to_int_sat. rewrite (proj1 (zero_finite d H)). unfold f64_num, f64_den, f64_m, f64_e, f64_exp, f64_frac. rewrite (zero_abs d H). change (0 / 2 ^ 52 =? 0) with true. cbv iota. rewrite Z.mod_0_l by discriminate. rewrite Z.mul_0_l, Z.div_0_l by discriminate. destruct (f64_neg d); reflexivity.
Qed.
Lemma zero_ne d e x : (d mod 2 ^ 63 = 0)%N -> (e mod 2 ^ 63 = 0)%N -> f64_ne d x = f64_ne e x.
Proof.
  intros D E. unfold f64_ne. rewrite (proj2 (zero_finite d D)), (proj2 (zero_finite e E)), (zero_test d D), (zero_test e E). cbn [orb andb]. f_equal. f_equal. destruct (f64_zero x) eqn:Z; [rewrite !orb_true_r; reflexivity|]. rewrite !orb_false_r.
  destruct (d =? x)%N eqn:A, (e =? x)%N eqn:B; try reflexivity.
  - apply N.eqb_eq in A. subst x. rewrite (zero_test d D) in Z. discriminate Z.
  - apply N.eqb_eq in B. subst x. rewrite (zero_test e E) in Z. discriminate Z.
Qed.
Lemma same_differs y x d : same y x -> differs y d = differs x d.
Proof.
  intros S. inversion S as [z E1 E2|a b A B E1 E2|l m F E1 E2]; subst; [reflexivity| |].
  - destruct d; try reflexivity. cbn [differs]. apply zero_ne; assumption.
  - destruct d; try reflexivity; try (destruct F; reflexivity).
Qed.
Lemma same_as_list y x : same y x -> Forall2 same (as_list y) (as_list x).
Proof.
  intros S. inversion S as [z E1 E2|a b A B E1 E2|l m F E1 E2]; subst.
  - induction (as_list x); constructor; [constructor|assumption].
  - constructor.
  - exact F.
Qed.
Lemma same_one code w y x : same y x -> same_write1 (write_one code w x) (write_one code w y).
Proof.
  intros S p H. inversion S as [z E1 E2|a b A B E1 E2|l m F E1 E2]; subst; [exists p; split; [exact H|apply same_pair_refl]| |].
  - unfold write_one in *. destruct w; cbn [apply_w bind] in *; try discriminate H; injection H as <-; (eexists; split; [reflexivity|]); split; try reflexivity; cbn [p_value]; [constructor; assumption|]. rewrite !zero_int by assumption. constructor.
  - unfold write_one in H. destruct w; discriminate H.
Qed.
Lemma same_map {A B} (R : A -> B -> Prop) f g l m : (forall x y, R x y -> same_write1 (f x) (g y)) -> Forall2 R l m -> same_write (map_res f l) (map_res g m).
Proof.
  intros H F. induction F as [|x y l m Rxy _ IH]; cbn [map_res]; [apply same_write_refl|]. intros ps E. destruct (f x) as [p|] eqn:Fx; cbn [bind] in E; [|discriminate E]. destruct (map_res f l) as [ps'|]; cbn [bind] in E; [|discriminate E]. injection E as <-.
  destruct (H x y Rxy p Fx) as (q & -> & Q). destruct (IH ps' eq_refl) as (qs & -> & Qs). exists (q :: qs). split; [reflexivity|]. constructor; assumption.
Qed.
Lemma same_flip y x : same y x -> (fun a b => same b a) x y.
Proof. intros S. exact S. Qed.
Lemma flip_forall l m : Forall2 same l m -> Forall2 (fun a b => same b a) m l.
Proof. induction 1; constructor; assumption. Qed.
Lemma same_nth l m d i : Forall2 same l m -> same (nth i l d) (nth i m d).
Proof. intros F. revert i. induction F as [|x y l m S _ IH]; intros [|i]; cbn [nth]; try apply same_refl; [exact S|apply IH]. Qed.
Lemma same_rholds v l m c : Forall2 same l m -> rholds v l c = rholds v m c.
Proof. intros F. destruct c; cbn [rholds]; [reflexivity|]. apply same_differs, same_nth, F. Qed.
Lemma forallb_same {A} (f g : A -> bool) l : (forall x, In x l -> f x = g x) -> forallb f l = forallb g l.
Proof. induction l as [|x l IH]; intros H; [reflexivity|]. cbn [forallb]. rewrite (H x (or_introl eq_refl)), IH; [reflexivity|]. intros y I. apply H. right. exact I. Qed.
Lemma same_parts v body l m : Forall2 same l m -> same_write (write_parts v body m) (write_parts v body l).
Proof.
  intros F. induction body as [|b body IH]; cbn [write_parts]; [apply same_write_refl|]. intros ps E. destruct (write_parts v body m) as [ps'|]; cbn [bind] in E; [|discriminate E]. destruct (IH ps' eq_refl) as (qs & -> & Q). cbn [bind].
  rewrite (forallb_same (rholds v l) (rholds v m)) by (intros c _; apply same_rholds, F). destruct (forallb (rholds v m) (pt_conds b)); [|injection E as <-; exists qs; split; [reflexivity|exact Q]].
  destruct (write_one (pt_code b) (pt_conv b) (nth (pt_comp b) m (FInt 0))) as [p|] eqn:W; cbn [bind] in E; [|discriminate E]. injection E as <-. destruct (same_one _ _ _ _ (same_nth l m (FInt 0) (pt_comp b) F) p W) as (q & -> & Qp). exists (q :: qs). split; [reflexivity|]. constructor; assumption.
Qed.
Lemma same_concat {A B} (R : A -> B -> Prop) (f : A -> res (list pair)) (g : B -> res (list pair)) l m : (forall x y, R x y -> same_write (f x) (g y)) -> Forall2 R l m ->
  same_write (let? ls := map_res f l in Ok (concat ls)) (let? ls := map_res g m in Ok (concat ls)).
Proof.
  intros H F. induction F as [|x y l m Rxy _ IH]; cbn [map_res]; [apply same_write_refl|]. intros ps E. destruct (f x) as [p|] eqn:Fx; cbn [bind] in E; [|discriminate E]. destruct (map_res f l) as [ps'|]; cbn [bind concat] in E; [|discriminate E]. injection E as <-.
  destruct (H x y Rxy p Fx) as (q & -> & Q). destruct (IH _ eq_refl) as (qs & E & Qs). cbn [bind] in *. destruct (map_res g m) as [qs'|]; cbn [bind] in *; [|discriminate E]. injection E as <-. eexists. split; [reflexivity|]. cbn [concat]. apply Forall2_app; assumption.
Qed.
Lemma same_fun {A} (f : fval -> list A) l m : Forall2 same l m -> (forall x y, same x y -> f x = f y) -> flat_map f l = flat_map f m.
Proof. intros F H. induction F as [|x y l m S _ IH]; [reflexivity|]. cbn [flat_map]. rewrite (H x y S), IH. reflexivity. Qed.
Lemma same_int y z : same y (FInt z) -> y = FInt z.
Proof. intros S. inversion S. reflexivity. Qed.
Lemma same_bool y b : same y (FBool b) -> y = FBool b.
Proof. intros S. inversion S. reflexivity. Qed.
Lemma same_multi m ys xs v : Forall2 same ys xs -> apply_mw m xs = Ok v -> ys = xs.
Proof.
  intros F H. destruct m; repeat (let x := fresh "x" in destruct xs as [|x xs]; try discriminate H; try (destruct x; try discriminate H));
  repeat match goal with F : Forall2 same _ (_ :: _) |- _ => inversion_clear F | F : Forall2 same _ [] |- _ => inversion_clear F end;
  repeat match goal with S : same _ (FInt _) |- _ => apply same_int in S; subst | S : same _ (FBool _) |- _ => apply same_bool in S; subst end; reflexivity.
Qed.

(** * Conditions *)
Section cmd.
  Variables (t : itype) (lost : list string) (v : version) (wh : bool) (item st : store).
  Hypothesis typed : well_typed t item.
  Hypothesis back : forall f, In f (it_fields t) -> f_public f = true -> ~ In (f_name f) lost -> stored v wh item f -> same (st (f_name f)) (kept v f (item (f_name f))).
  Lemma slot_back cs test s : slot_kept t lost v wh cs test s = true -> (forall u, In (CTrue u) cs -> item u = FBool true) -> exists f, In f (it_fields t) /\ f_name f = s /\ test f = true /\ same (st s) (kept v f (item s)).
  Proof.
    intros H T. unfold slot_kept in H. apply andb_true_iff in H as [N H]. apply existsb_exists in H as (f & If & H). destruct (String.eqb (f_name f) s) eqn:E; [|discriminate H]. apply String.eqb_eq in E. apply andb_true_iff in H as [H Te]. apply andb_true_iff in H as [P W].
    exists f. split; [exact If|]. split; [exact E|]. split; [exact Te|]. rewrite <- E. apply back; [exact If|exact P| |].
    - intros I. apply memb_In in I. rewrite E in I. rewrite I in N. discriminate N.
    - apply existsb_exists in W as (w & Iw & W). exists w. split; [exact Iw|]. unfold win_implied in W. apply andb_true_iff in W as [W W4]. apply andb_true_iff in W as [W W3]. apply andb_true_iff in W as [W1 W2]. unfold window_applies.
      split; [destruct (w_min w); [unfold version_leb in W1; lia|exact Logic.I]|]. split; [destruct (w_max w); [unfold version_leb in W2; lia|exact Logic.I]|]. split; [intros Hh; rewrite Hh in W3; exact W3|].
      destruct (w_when w) as [u|]; [|exact Logic.I]. apply existsb_exists in W4 as (c & Ic & W4). destruct c; try discriminate W4. apply String.eqb_eq in W4. subst u. apply T, Ic.
  Qed.
  Lemma kept_whole f x : whole_comps v f = true -> kept v f x = x.
  Proof.
    intros H. unfold kept, whole_comps in *. destruct (f_comps f) as [|c cs]; [reflexivity|]. destruct x; try reflexivity. f_equal. rewrite <- map_id. apply map_ext. intros el. revert el. generalize dependent (c :: cs). intros k. induction k as [|[[j m] d] k IH]; intros H el; [reflexivity|].
    cbn [forallb fold_left fst snd] in *. apply andb_true_iff in H as [H1 H2]. unfold drop_comp at 2. unfold version_leb in H1. rewrite H1. apply IH, H2.
  Qed.
  Lemma strict_back cs s : slot_kept t lost v wh cs (whole_comps v) s = true -> (forall u, In (CTrue u) cs -> item u = FBool true) -> same (st s) (item s).
  Proof. intros H T. destruct (slot_back cs _ s H T) as (f & _ & _ & W & S). rewrite (kept_whole f (item s) W) in S. exact S. Qed.
  Lemma all_true cs : all_hold v wh item cs = true -> forall u, In (CTrue u) cs -> item u = FBool true.
  Proof. intros H u I. unfold all_hold in H. rewrite forallb_forall in H. specialize (H _ I). cbn [holds] in H. destruct (item u) as [b| | | | | | | |]; try discriminate H. destruct b; [reflexivity|discriminate H]. Qed.
  Lemma holds_same c : (forall s, In s (cond_slots c) -> same (st s) (item s)) -> holds v wh st c = holds v wh item c.
  Proof.
    intros H. destruct c as [m|m| |l|s|s|s m b]; cbn [holds cond_slots] in *; try reflexivity.
    - induction l as [|[s d] l IH]; [reflexivity|]. cbn [existsb map fst] in *. rewrite (same_differs _ _ d (H s (or_introl eq_refl))), IH; [reflexivity|]. intros u I. apply H. right. exact I.
    - pose proof (H s (or_introl eq_refl)) as S. inversion S; subst; reflexivity.
    - pose proof (same_as_list _ _ (H s (or_introl eq_refl))) as F. destruct F; reflexivity.
    - pose proof (H s (or_introl eq_refl)) as S. inversion S; subst; reflexivity.
  Qed.

  Lemma conds_same cs : forallb (fun c => match c with CTrue u => slot_kept t lost v wh [] (whole_comps v) u | _ => true end) cs = true -> forallb (slot_kept t lost v wh cs (whole_comps v)) (flat_map cond_slots cs) = true ->
    all_hold v wh st cs = all_hold v wh item cs.
  Proof.
    intros H1 H2. assert (D : (forall u, In (CTrue u) cs -> item u = FBool true) \/ exists u, In (CTrue u) cs /\ holds v wh item (CTrue u) = false).
    { clear. induction cs as [|c cs [IH|(u & I & H)]]; [left; intros u []| |right; exists u; split; [right; exact I|exact H]]. destruct c as [m|m| |l|s|s|s m b]; try (left; intros u [X|X]; [discriminate X|exact (IH u X)]).
      destruct (holds v wh item (CTrue s)) eqn:E; [|right; exists s; split; [left; reflexivity|exact E]]. left. intros u [X|X]; [|exact (IH u X)]. injection X as <-. cbn [holds] in E. destruct (item s) as [b| | | | | | | |]; try discriminate E. destruct b; [reflexivity|discriminate E]. }
    destruct D as [D|(u & I & D)].
    - unfold all_hold. apply forallb_same. intros c I. apply holds_same. intros s Is. rewrite forallb_forall in H2. apply (strict_back cs s); [|exact D]. apply H2. apply in_flat_map. exists c. split; assumption.
    - assert (E : holds v wh st (CTrue u) = false). { rewrite <- D. apply holds_same. intros s [<- |[]]. rewrite forallb_forall in H1. apply (strict_back [] u); [exact (H1 _ I)|intros w []]. }
      assert (F : forall x, holds v wh x (CTrue u) = false -> all_hold v wh x cs = false). { intros x Hx. unfold all_hold. destruct (forallb (holds v wh x) cs) eqn:A; [|reflexivity]. rewrite forallb_forall in A. rewrite (A _ I) in Hx. discriminate Hx. }
      rewrite (F _ D), (F _ E). reflexivity.
  Qed.
  (** Components that the version does not have are not looked at. *)
  Lemma nth_drop (l : list fval) j d i x : (j < length l)%nat -> i <> j -> nth i (firstn j l ++ d :: skipn (S j) l) x = nth i l x.
  Proof.
    revert j i. induction l as [|y l IH]; intros j i L N; [cbn [length] in L; lia|]. destruct j as [|j]; [destruct i as [|i]; [contradiction N; reflexivity|reflexivity]|]. destruct i as [|i]; [reflexivity|]. cbn [firstn skipn app nth]. apply IH; [cbn [length] in L; lia|lia].
  Qed.
  Lemma drop_length (l : list fval) j d : (j < length l)%nat -> length (firstn j l ++ d :: skipn (S j) l) = length l.
  Proof. intros L. rewrite app_length, firstn_length. cbn [length]. rewrite skipn_length. lia. Qed.
  Lemma blind_parts j d body l : forallb (part_blind v j) body = true -> (j < length l)%nat -> write_parts v body (firstn j l ++ d :: skipn (S j) l) = write_parts v body l.
  Proof.
    intros B L. induction body as [|b body IH]; [reflexivity|]. cbn [forallb write_parts] in *. apply andb_true_iff in B as [B1 B2]. rewrite (IH B2). destruct (write_parts v body l) as [ps|]; [|reflexivity]. cbn [bind]. unfold part_blind in B1. apply orb_true_iff in B1 as [B1|B1].
    - apply existsb_exists in B1 as (c & Ic & B1). assert (F : forall el, forallb (rholds v el) (pt_conds b) = false).
      { intros el. destruct (forallb (rholds v el) (pt_conds b)) eqn:A; [|reflexivity]. rewrite forallb_forall in A. specialize (A c Ic). destruct c; cbn [rholds] in *; [rewrite A in B1; discriminate B1|discriminate B1]. }
      rewrite !F. reflexivity.
    - apply andb_true_iff in B1 as [N C]. apply negb_true_iff, Nat.eqb_neq in N. rewrite nth_drop by assumption. rewrite (forallb_same (rholds v (firstn j l ++ d :: skipn (S j) l)) (rholds v l)); [reflexivity|].
      intros c Ic. rewrite forallb_forall in C. specialize (C c Ic). destruct c as [m|i e]; cbn [rholds]; [reflexivity|]. apply negb_true_iff, Nat.eqb_neq in C. rewrite nth_drop by assumption. reflexivity.
  Qed.
  Lemma kept_parts f body x : parts_blind v body f = true -> has_kind (f_kind f) x -> Forall2 (fun el k => write_parts v body (as_list el) = write_parts v body (as_list k)) (as_list x) (as_list (kept v f x)).
  Proof.
    intros B K. unfold kept, parts_blind in *. assert (R : forall l : list fval, Forall2 (fun el k => write_parts v body (as_list el) = write_parts v body (as_list k)) l l) by (induction l; constructor; [reflexivity|assumption]).
    destruct (f_comps f) as [|c cs]; [apply R|]. destruct x; try apply R. rename l into els. cbn [as_list].
    assert (G : forall n cs els, forallb (fun c => version_leb (snd (fst c)) v || (forallb (part_blind v (fst (fst c))) body && Nat.ltb (fst (fst c)) n)) cs = true -> Forall (fun el => exists l, el = FList l /\ length l = n) els ->
      Forall2 (fun el k => write_parts v body (as_list el) = write_parts v body (as_list k)) els (map (fun el => fold_left (fun el c => drop_comp v c el) cs el) els)).
    { clear. intros n cs els B F. induction F as [|el els (l & -> & L) _ IH]; [constructor|]. cbn [map]. constructor; [|exact IH]. clear IH els. revert l L. induction cs as [|[[j m] d] cs IH]; intros l L; [reflexivity|]. cbn [forallb fold_left fst snd] in *. apply andb_true_iff in B as [B1 B2].
      unfold drop_comp at 2. unfold version_leb in B1 at 1. destruct (version_index m <=? version_index v)%N; [exact (IH B2 l L)|]. cbn [orb] in B1. apply andb_true_iff in B1 as [B1 B3]. apply Nat.ltb_lt in B3. rewrite <- (IH B2) by (rewrite drop_length; lia). cbn [as_list]. rewrite (blind_parts j d body l B1) by lia. reflexivity. }
    destruct (match f_kind f with KList (KRec ks) => Some ks | _ => None end) as [ks|] eqn:Ek.
    - destruct (f_kind f) as [| | | | | | | | | |k| | | |]; try discriminate Ek. destruct k; try discriminate Ek. injection Ek as ->. destruct K as (l & E & K). injection E as <-. apply (G (length ks) (c :: cs)); [exact B|]. revert K. apply Forall_impl. intros el (l' & -> & A). exists l'. split; [reflexivity|]. clear - A.
      revert l' A. induction ks as [|k ks IH]; intros [|x l'] A; try contradiction A; [reflexivity|]. cbn [length]. f_equal. apply IH, (proj2 A).
    - replace (map _ els) with els; [apply R|]. rewrite <- map_id at 1. apply map_ext. intros el. revert el. generalize dependent (c :: cs). intros k B. induction k as [|[[j m] d] k IH]; intros el; [reflexivity|]. cbn [forallb fold_left fst snd] in *. apply andb_true_iff in B as [B1 B2].
      rewrite <- (IH B2). unfold drop_comp. unfold version_leb in B1. destruct (version_index m <=? version_index v)%N; [reflexivity|]. cbn [orb] in B1. apply andb_true_iff in B1 as [_ B1]. destruct (f_kind f) as [| | | | | | | | | |k'| | | |]; try discriminate B1. destruct k'; try discriminate B1. discriminate Ek.
  Qed.
  Lemma kept_length f x : length (as_list (kept v f x)) = length (as_list x).
  Proof. unfold kept. destruct (f_comps f); [reflexivity|]. destruct x; try reflexivity. cbn [as_list]. apply map_length. Qed.
  Lemma pairwise_len {A B} (R : A -> B -> Prop) l m : Forall2 R l m -> length l = length m.
  Proof. induction 1; cbn [length]; congruence. Qed.
  Lemma length_value l x y : length (as_list x) = length (as_list y) -> (l = LUtf8 -> same y x) -> apply_l l y = apply_l l x.
  Proof.
    intros L U. unfold apply_l. rewrite L. destruct l; try reflexivity. specialize (U eq_refl). inversion U as [z E1 E2|a b A B E1 E2|l m F E1 E2]; subst; reflexivity.
  Qed.
  (** Two lists of values related through the part of them that is kept. *)
  Lemma compose_kept body xs ks ys : Forall2 (fun el k => write_parts v body (as_list el) = write_parts v body (as_list k)) xs ks -> Forall2 same ys ks ->
    Forall2 (fun x y => exists k, write_parts v body (as_list x) = write_parts v body (as_list k) /\ same y k) xs ys.
  Proof.
    intros F. revert ys. induction F as [|x k xs ks E _ IH]; intros ys G; inversion G; subst; constructor; [eexists; split; eassumption|apply IH; assumption].
  Qed.
  Lemma same_ok ps : same_write (Ok ps) (Ok ps).
  Proof. apply same_write_refl. Qed.
  Lemma static_hold cs x : static_off v wh cs = true -> all_hold v wh x cs = false.
  Proof.
    intros H. unfold static_off in H. apply existsb_exists in H as (c & I & H). unfold all_hold. destruct (forallb (holds v wh x) cs) eqn:A; [|reflexivity]. rewrite forallb_forall in A. specialize (A c I). destruct c; try discriminate H; cbn [holds] in A; rewrite A in H; discriminate H.
  Qed.
  Lemma strict_all cs ss : (forall u, In (CTrue u) cs -> item u = FBool true) -> forallb (slot_kept t lost v wh cs (whole_comps v)) ss = true -> Forall2 same (map st ss) (map item ss).
  Proof.
    intros T H. induction ss as [|s ss IH]; [constructor|]. cbn [forallb map] in *. apply andb_true_iff in H as [H1 H2]. constructor; [exact (strict_back cs s H1 T)|exact (IH H2)].
  Qed.
  Lemma cmd_again c : again_cmd t lost v wh c = true -> same_write (write_cmd v wh item c) (write_cmd v wh st c).
  Proof.
    unfold again_cmd, write_cmd. intros H. apply orb_true_iff in H as [H|H]; [rewrite !static_hold by exact H; apply same_ok|]. apply andb_true_iff in H as [H W]. apply andb_true_iff in H as [H1 H2].
    rewrite (conds_same _ H1 H2). destruct (all_hold v wh item (cmd_conds c)) eqn:A; [|apply same_ok]. pose proof (all_true _ A) as T. clear H1 H2 A. destruct c as [cs code s w|cs p|cs code s l|cs code s w|cs s body|cs code s ix|cs code ss m|cs s|cs s]; cbn [write_body cmd_conds] in *.
    - pose proof (strict_back cs s W T) as S. intros ps E. destruct (write_one code w (item s)) as [p|] eqn:P; cbn [bind] in E; [|discriminate E]. injection E as <-. destruct (same_one code w _ _ S p P) as (q & -> & Q). exists [q]. split; [reflexivity|]. constructor; [exact Q|constructor].
    - apply same_ok.
    - assert (X : apply_l l (st s) = apply_l l (item s)).
      { destruct l; try (destruct (slot_back cs _ s W T) as (f & _ & _ & _ & S); apply length_value; [rewrite (pairwise_len _ _ _ (same_as_list _ _ S)), kept_length; reflexivity|discriminate]).
        pose proof (strict_back cs s W T) as S. apply length_value; [symmetry; apply (pairwise_len _ _ _ (same_as_list _ _ S))|intros _; exact S]. }
      rewrite X. apply same_ok.
    - pose proof (strict_back cs s W T) as S. apply (same_map (fun a b => same b a)); [intros x y Sxy; apply same_one, Sxy|]. apply flip_forall, same_as_list, S.
    - destruct (slot_back cs _ s W T) as (f & If & Ef & B & S). apply (same_concat (fun x y => exists k, write_parts v body (as_list x) = write_parts v body (as_list k) /\ same y k)).
      + intros x y (k & -> & Sk). apply same_parts, same_as_list, Sk.
      + apply (compose_kept body _ (as_list (kept v f (item s)))); [|apply same_as_list, S]. apply kept_parts; [exact B|]. rewrite <- Ef. apply (typed f If).
    - pose proof (strict_back cs s W T) as S. apply (same_map eq); [|induction ix; constructor; [reflexivity|assumption]]. intros i j <-. apply same_one, same_nth, same_as_list, S.
    - pose proof (strict_all cs ss T W) as S. intros ps E. destruct (apply_mw m (map item ss)) as [x|] eqn:X; cbn [bind] in E; [|discriminate E]. rewrite (same_multi m _ _ _ S X), X. exists ps. split; [exact E|apply same_pairs_refl].
    - pose proof (strict_back cs s W T) as S. rewrite (same_fun _ _ _ (same_as_list _ _ S)); [apply same_ok|]. intros x y Sxy. inversion Sxy; reflexivity.
    - destruct (version_leb R2000 v) eqn:V.
      + pose proof (strict_back cs s W T) as S. rewrite (same_fun _ _ _ (same_as_list _ _ S)); [apply same_ok|]. intros x y Sxy. inversion Sxy; reflexivity.
      + assert (E : forall l, flat_map (fun x => match x with FXd d => write_xdata v d | _ => [] end) l = []). { induction l as [|x l IH]; [reflexivity|]. cbn [flat_map]. rewrite IH. unfold write_xdata. rewrite V. destruct x; reflexivity. }
        rewrite !E. apply same_ok.
  Qed.
  Lemma cmds_again cs : forallb (again_cmd t lost v wh) cs = true -> same_write (write_cmds v wh item cs) (write_cmds v wh st cs).
  Proof.
    induction cs as [|c cs IH]; intros H; [apply same_ok|]. cbn [forallb write_cmds] in *. apply andb_true_iff in H as [H1 H2]. intros ps E. destruct (write_cmd v wh item c) as [a|] eqn:Ea; cbn [bind] in E; [|discriminate E]. destruct (write_cmds v wh item cs) as [b|]; cbn [bind] in E; [|discriminate E]. injection E as <-.
    destruct (cmd_again c H1 a Ea) as (a' & -> & Qa). destruct (IH H2 b eq_refl) as (b' & -> & Qb). exists (a' ++ b')%list. split; [reflexivity|]. apply Forall2_app; assumption.
  Qed.
End cmd.

Lemma again_sound t lost v : again t lost v = true -> survives t v lost -> written_again t v.
Proof.
  intros A S wh item T. destruct (S wh item T) as (ps & st & W & R & F). unfold again in A. assert (B : forallb (again_cmd t lost v wh) (sp_cmds (it_spec t)) = true) by (rewrite forallb_forall in A; apply A; destruct wh; cbn [In]; auto).
  destruct (cmds_again t lost v wh item st T (fun f If P N => proj1 (F f If P N)) _ B ps W) as (qs & Q & E). exists ps, st, qs. split; [exact W|]. split; [exact R|]. split; [exact Q|exact E].
Qed.

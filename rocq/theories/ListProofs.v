(** Repeated codes: checks of a specification against the lists of ListSpec.v and their soundness. *)
From Verif Require Import Base F64Model CodePairModel CodePairSpec CodePairProofs VersionModel StreamModel ExtDataModel BitsModel SpecModel SpecSpec SpecCheck SpecProofs DocSpec DrawingModel FileModel EntityData TableData ObjectData DocProofs ListSpec.
Open Scope string_scope.
Open Scope list_scope.
Open Scope Z_scope.
Set Default Goal Selector "!".

Lemma under_cons c p ps : under c (p :: ps) = (if p_code p =? c then [p_value p] else []) ++ under c ps.
Proof. unfold under. cbn [filter]. destruct (p_code p =? c); reflexivity. Qed.
Lemma under_app c a b : under c (a ++ b) = under c a ++ under c b.
Proof. unfold under. rewrite filter_app, map_app. reflexivity. Qed.
Lemma under_none c ps : Forall (fun p => p_code p <> c) ps -> under c ps = [].
Proof. induction 1 as [|p ps H _ IH]; [reflexivity|]. rewrite under_cons, IH. destruct (p_code p =? c) eqn:E; [lia|reflexivity]. Qed.

(** * Reading *)
Definition untouched (arms : list arm) (s : string) : bool := forallb (fun a => forallb (fun x => negb (memb s (action_slots x))) (a_actions a)) arms.
(** The first arm for the code adds to the field; no arm for another code touches it. *)
Fixpoint first_arm (arms : list arm) (c : Z) : option arm :=
  match arms with [] => None | a :: r => if a_code a =? c then Some a else first_arm r c end.
Definition pushes (arms : list arm) (s : string) (c : Z) (m : meaning) : bool :=
  match first_arm arms c with
  | Some a => match a_guards a, a_actions a with [], [APush t k] => String.eqb t s && reads_as m k | _, _ => false end
  | None => false
  end && forallb (fun a => (a_code a =? c) || forallb (fun x => negb (memb s (action_slots x))) (a_actions a)) arms.
Lemma first_found arms c a regs : first_arm arms c = Some a -> a_guards a = [] -> find_arm arms c regs = Some (a_actions a).
Proof.
  induction arms as [|b arms IH]; cbn [first_arm find_arm]; [discriminate|]. destruct (a_code b =? c); cbn [andb]; [|exact IH]. intros H G. injection H as ->. rewrite G. reflexivity.
Qed.
Lemma step_push arms s c m p st regs it st' regs' it' : pushes arms s c m = true -> step arms p st regs it = Ok (st', regs', it') ->
  if p_code p =? c then exists y, st' s = push (st s) y /\ forall x, understood m (p_value p) = Some x -> y = x else st' s = st s.
Proof.
  unfold pushes. intros C H. apply andb_true_iff in C as [C1 C2]. unfold step in H. destruct (p_code p =? c) eqn:E.
  - assert (p_code p = c) as E' by lia. rewrite E' in H. destruct (first_arm arms c) as [a|] eqn:F; [|discriminate C1]. destruct (a_guards a) eqn:G; [|discriminate C1]. destruct (a_actions a) as [|[] []] eqn:A; try discriminate C1.
    apply andb_true_iff in C1 as [C1 R]. apply String.eqb_eq in C1 as ->. rewrite (first_found _ _ _ regs F G), A in H. cbn [acts act] in H. destruct (apply_r r p) as [y|] eqn:Y; cbn [bind fst snd] in H; [|discriminate H]. injection H as <- _ _.
    exists y. split; [unfold upd; rewrite String.eqb_refl; reflexivity|]. intros x U. exact (reads_as_sound _ _ _ _ _ R U Y).
  - destruct (find_arm arms (p_code p) regs) as [l|] eqn:F; [|injection H as <- _ _; reflexivity]. destruct (find_arm_In _ _ _ _ F) as (a & Hin & Ha & <-).
    rewrite forallb_forall in C2. specialize (C2 a Hin). rewrite Ha, E in C2. cbn [orb] in C2. exact (acts_keeps _ _ _ C2 _ _ _ _ _ _ H).
Qed.
Lemma step_untouched arms s p st regs it st' regs' it' : untouched arms s = true -> step arms p st regs it = Ok (st', regs', it') -> st' s = st s.
Proof.
  unfold untouched, step. intros C H. destruct (find_arm arms (p_code p) regs) as [l|] eqn:F; [|injection H as <- _ _; reflexivity]. destruct (find_arm_In _ _ _ _ F) as (a & Hin & _ & <-).
  rewrite forallb_forall in C. exact (acts_keeps _ _ _ (C a Hin) _ _ _ _ _ _ H).
Qed.
Lemma run_lists arms eof nx rest : groups_marked arms = true -> p_code nx = 0 -> forall ps fuel st regs st' regs' it', plain ps ->
  run arms eof fuel (map Ok ps ++ Ok nx :: rest) st regs = Ok (st', regs', it') -> it' = Ok nx :: rest /\
  (forall s, untouched arms s = true -> st' s = st s) /\
  (forall s c m, pushes arms s c m = true -> forall l xs, st s = FList l -> Forall2 (fun v x => understood m v = Some x) (under c ps) xs -> st' s = FList (l ++ xs)).
Proof.
  intros G Z. induction ps as [|p ps IH]; intros fuel st regs st' regs' it' P H; (destruct fuel as [|f]; cbn [run] in H; [discriminate H|]); cbn [map app] in H.
  - rewrite Z in H. change (0 =? 0) with true in H. cbn iota in H. injection H as <- _ <-. split; [reflexivity|]. split; [reflexivity|]. intros s c m _ l xs E F. inversion F. rewrite app_nil_r. exact E.
  - inversion P as [|x l (P0 & P1 & P2) P4]; subst x l. destruct (p_code p =? 0) eqn:E0; [lia|].
    destruct (step arms p st regs (map Ok ps ++ Ok nx :: rest)) as [[[st1 regs1] it1]|] eqn:E; cbn [bind fst snd] in H; [|discriminate H].
    pose proof (step_rest _ _ _ _ _ _ _ _ G P1 P2 E) as ->. destruct (IH _ _ _ _ _ _ P4 H) as (R1 & R2 & R3). split; [exact R1|]. split.
    + intros s U. rewrite (R2 s U). exact (step_untouched _ _ _ _ _ _ _ _ _ U E).
    + intros s c m C l xs L F. rewrite under_cons in F. pose proof (step_push _ _ _ _ _ _ _ _ _ _ _ C E) as Q. destruct (p_code p =? c).
      * destruct Q as (y & Q1 & Q2). cbn [app] in F. inversion F as [|v x vs xs' U F']; subst. rewrite (Q2 x U), L in Q1. cbn [push as_list] in Q1. rewrite (R3 s c m C _ xs' Q1 F'). rewrite <- app_assoc. reflexivity.
      * cbn [app] in F. rewrite L in Q. exact (R3 s c m C l xs Q F).
Qed.
(** Which parts a final step puts together into the field; no other final step has anything to do with them. *)
Fixpoint combined (fs : list final) (s : string) : option (list string) :=
  match fs with
  | [] => None
  | PCombine parts t :: r => if String.eqb t s then (if forallb (fun f => negb (memb s (final_slots f))) r then Some parts else None) else combined r s
  | _ :: r => combined r s
  end.
(** The steps before the one for the field do not touch [l]. *)
Fixpoint before_clear (fs : list final) (s : string) (l : list string) : bool :=
  match fs with
  | [] => true
  | PCombine parts t :: r => if String.eqb t s then true else forallb (fun x => negb (memb x (t :: parts))) l && before_clear r s l
  | f :: r => forallb (fun x => negb (memb x (final_slots f))) l && before_clear r s l
  end.
Lemma finish_keeps f s st : memb s (final_slots f) = false -> finish f st s = st s.
Proof. intros M. pose proof (finals_keep [f] s) as K. cbn [forallb fold_left] in K. rewrite M in K. exact (K eq_refl st). Qed.
Lemma combined_sound s parts l : forall fs st, combined fs s = Some parts -> before_clear fs s l = true -> incl (s :: parts) l ->
  exists st0, (forall x, In x l -> st0 x = st x) /\ forall y, y = s -> fold_left (fun st f => finish f st) fs st y = finish (PCombine parts s) st0 y.
Proof.
  induction fs as [|f fs IH]; intros st C B I; [discriminate C|]. cbn [fold_left]. cbn [combined before_clear] in *.
  assert (forall x, forallb (fun x => negb (memb x (final_slots f))) l = true -> In x l -> finish f st x = st x) as Keep.
  { intros x F Hx. rewrite forallb_forall in F. apply finish_keeps, negb_true_iff, F, Hx. }
  assert (combined fs s = Some parts -> before_clear fs s l = true -> forallb (fun x => negb (memb x (final_slots f))) l = true ->
    exists st0, (forall x, In x l -> st0 x = st x) /\ forall y, y = s -> fold_left (fun st f => finish f st) fs (finish f st) y = finish (PCombine parts s) st0 y) as Later.
  { intros C' B' F. destruct (IH (finish f st) C' B' I) as (st0 & A1 & A2). exists st0. split; [|exact A2]. intros x Hx. rewrite (A1 x Hx). exact (Keep x F Hx). }
  destruct f as [qs t|qs t|q t].
  - destruct (String.eqb t s) eqn:T.
    + destruct (forallb _ fs) eqn:F; [|discriminate C]. injection C as ->. apply String.eqb_eq in T as ->. exists st. split; [reflexivity|]. intros y ->. exact (finals_keep fs s F _).
    + apply andb_true_iff in B as [B1 B2]. exact (Later C B2 B1).
  - apply andb_true_iff in B as [B1 B2]. exact (Later C B2 B1).
  - apply andb_true_iff in B as [B1 B2]. exact (Later C B2 B1).
Qed.
Definition list_default (sp : spec) (s : string) : bool := match default_of sp s with FList [] => true | _ => false end.
Lemma list_default_sound sp s : list_default sp s = true -> default_of sp s = FList [].
Proof. unfold list_default. destruct (default_of sp s) as [| | | | | | | |[|]]; try discriminate. reflexivity. Qed.
Definition list_read (sp : spec) (r : lrow) : bool :=
  let f := lr_field r in
  match lr_shape r with
  | Each c m => pushes (sp_arms sp) f c m && list_default sp f && forallb (fun x => negb (memb f (final_slots x))) (sp_finals sp)
  | Points x y z =>
      untouched (sp_arms sp) f && list_default sp f &&
      match combined (sp_finals sp) f, z with
      | Some [a; b], None => pushes (sp_arms sp) a x Real && pushes (sp_arms sp) b y Real && list_default sp a && list_default sp b && negb (memb f [a; b]) && before_clear (sp_finals sp) f [f; a; b]
      | Some [a; b; c], Some z => pushes (sp_arms sp) a x Real && pushes (sp_arms sp) b y Real && pushes (sp_arms sp) c z Real && list_default sp a && list_default sp b && list_default sp c && negb (memb f [a; b; c]) && before_clear (sp_finals sp) f [f; a; b; c]
      | _, _ => false
      end
  end.
Lemma reals_understood (g : point -> N) l : Forall2 (fun v x => understood Real v = Some x) (map (fun q => VDouble (g q)) l) (map (fun q => FF64 (g q)) l).
Proof. induction l as [|q l IH]; cbn [map]; constructor; [reflexivity|exact IH]. Qed.
Lemma zip3 l : zip_parts [map (fun q => FF64 (px q)) l; map (fun q => FF64 (py q)) l; map (fun q => FF64 (pz q)) l] (length l) = map (fun q => [FF64 (px q); FF64 (py q); FF64 (pz q)]) l.
Proof. induction l as [|q l IH]; [reflexivity|]. cbn [map length zip_parts hd tl]. f_equal. exact IH. Qed.
Lemma zip2 l : zip_parts [map (fun q => FF64 (px q)) l; map (fun q => FF64 (py q)) l] (length l) = map (fun q => [FF64 (px q); FF64 (py q)]) l.
Proof. induction l as [|q l IH]; [reflexivity|]. cbn [map length zip_parts hd tl]. f_equal. exact IH. Qed.
Lemma item_lists sp ps nx rest o r : groups_marked (sp_arms sp) = true -> sp_created sp = [] -> plain ps -> p_code nx = 0 ->
  read_item sp (map Ok ps ++ Ok nx :: rest) = Ok (o, r) -> r = Ok nx :: rest /\ exists st, o = Some st /\ forall w, list_read sp w = true -> list_follows ps st w.
Proof.
  intros G Cr P Z H. unfold read_item in H. destruct (run _ _ _ _ _ _) as [[[st1 regs1] it1]|] eqn:E; cbn [bind] in H; [|discriminate H]. rewrite Cr in H. cbn [forallb] in H. injection H as <- <-.
  destruct (run_lists _ _ _ _ G Z _ _ _ _ _ _ _ P E) as (R1 & R2 & R3). split; [exact R1|]. eexists. split; [reflexivity|]. intros w C. unfold list_follows, list_read in *. cbv zeta in C. destruct (lr_shape w) as [c m|x y z].
  - apply andb_true_iff in C as [C C3]. apply andb_true_iff in C as [C1 C2]. intros xs F. rewrite (finals_keep _ _ C3). exact (R3 _ _ _ C1 [] xs (list_default_sound _ _ C2) F).
  - apply andb_true_iff in C as [C C3]. apply andb_true_iff in C as [C1 C2]. pose proof (list_default_sound _ _ C2) as Df. rewrite <- (R2 _ C1) in Df.
    intros l (Q1 & Q2 & Q3). destruct (combined (sp_finals sp) (lr_field w)) as [[|a [|b [|c [|]]]]|] eqn:Co; try discriminate C3; destruct z as [z|]; try discriminate C3.
    + apply andb_true_iff in C3 as [C3 B]. apply andb_true_iff in C3 as [C3 N]. apply andb_true_iff in C3 as [C3 D2]. apply andb_true_iff in C3 as [C3 D1]. apply andb_true_iff in C3 as [P1 P2].
      pose proof (R3 _ _ _ P1 [] _ (list_default_sound _ _ D1) ltac:(rewrite Q1; apply reals_understood)) as S1. pose proof (R3 _ _ _ P2 [] _ (list_default_sound _ _ D2) ltac:(rewrite Q2; apply reals_understood)) as S2. cbn [app] in S1, S2.
      destruct (combined_sound _ _ [lr_field w; a; b] _ st1 Co B ltac:(apply incl_refl)) as (st0 & A1 & A2). rewrite (A2 _ eq_refl). cbn [finish map length]. cbv zeta. rewrite (cleared_keeps _ _ (proj1 (negb_true_iff _) N)). unfold upd at 1. rewrite String.eqb_refl.
      rewrite (A1 (lr_field w)), (A1 a), (A1 b) by (cbn [In]; tauto). rewrite Df, S1, S2. cbn [as_list app min_length fold_left]. rewrite !map_length, Nat.min_id, zip2, map_map. f_equal. apply map_ext_in. intros q Hq. unfold point_value. rewrite Forall_forall in Q3. rewrite (Q3 q Hq). reflexivity.
    + apply andb_true_iff in C3 as [C3 B]. apply andb_true_iff in C3 as [C3 N]. apply andb_true_iff in C3 as [C3 D3]. apply andb_true_iff in C3 as [C3 D2]. apply andb_true_iff in C3 as [C3 D1]. apply andb_true_iff in C3 as [C3 P3]. apply andb_true_iff in C3 as [P1 P2].
      pose proof (R3 _ _ _ P1 [] _ (list_default_sound _ _ D1) ltac:(rewrite Q1; apply reals_understood)) as S1. pose proof (R3 _ _ _ P2 [] _ (list_default_sound _ _ D2) ltac:(rewrite Q2; apply reals_understood)) as S2.
      pose proof (R3 _ _ _ P3 [] _ (list_default_sound _ _ D3) ltac:(rewrite Q3; apply reals_understood)) as S3. cbn [app] in S1, S2, S3.
      destruct (combined_sound _ _ [lr_field w; a; b; c] _ st1 Co B ltac:(apply incl_refl)) as (st0 & A1 & A2). rewrite (A2 _ eq_refl). cbn [finish map length]. cbv zeta. rewrite (cleared_keeps _ _ (proj1 (negb_true_iff _) N)). unfold upd at 1. rewrite String.eqb_refl.
      rewrite (A1 (lr_field w)), (A1 a), (A1 b), (A1 c) by (cbn [In]; tauto). rewrite Df, S1, S2, S3. cbn [as_list app min_length fold_left]. rewrite !map_length, !Nat.min_id, zip3, map_map. f_equal.
Qed.

(** * Writing *)
Definition silent (groups : list string) (z : Z) (c : cmd) : bool :=
  let other k := negb (k =? z) in
  match c with
  | WPair _ k _ _ | WLen _ k _ _ | WEach _ k _ _ | WPick _ k _ _ | WMulti _ k _ _ => other k
  | WConst _ p => other (p_code p)
  | WEachRec _ _ body => forallb (fun b => other (pt_code b)) body
  | WExts _ s | WXdatas _ s => memb s groups
  end.
Lemma silent_sound groups z v wh st c ps : silent groups z c = true -> no_groups groups st -> write_cmd v wh st c = Ok ps -> under z ps = [].
Proof.
  intros C G H. apply under_none. unfold write_cmd in H. destruct (all_hold v wh st (cmd_conds c)); [|injection H as <-; constructor]. destruct c; cbn [write_body silent] in *.
  - destruct (write_one code w (st s)) as [p|] eqn:E; cbn [bind] in H; [|discriminate H]. injection H as <-. constructor; [|constructor]. rewrite (proj1 (write_one_code _ _ _ _ E)). lia.
  - injection H as <-. constructor; [lia|constructor].
  - injection H as <-. constructor; [cbn [p_code]; lia|constructor].
  - refine (Forall_impl _ _ (map_res_all _ (fun p => p_code p = code) _ _ _ H)); [intros p Hp; lia|]. intros x y E. exact (proj1 (write_one_code _ _ _ _ E)).
  - destruct (map_res _ _) as [ls|] eqn:E; cbn [bind] in H; [|discriminate H]. injection H as <-. rewrite forallb_forall in C.
    assert (Forall (fun b => pt_code b <> z) body) as F by (apply Forall_forall; intros b Hb; specialize (C b Hb); lia).
    apply Forall_concat. exact (map_res_all _ (Forall (fun p => p_code p <> z)) (fun x y E => write_parts_codes v (fun k => k <> z) body F (as_list x) y E) _ _ E).
  - refine (Forall_impl _ _ (map_res_all _ (fun p => p_code p = code) _ _ _ H)); [intros p Hp; lia|]. intros x y E. exact (proj1 (write_one_code _ _ _ _ E)).
  - destruct (apply_mw _ _); cbn [bind] in H; [|discriminate H]. injection H as <-. constructor; [cbn [p_code]; lia|constructor].
  - injection H as <-. rewrite (G _ (proj1 (memb_In _ _) C)). constructor.
  - injection H as <-. rewrite (G _ (proj1 (memb_In _ _) C)). constructor.
Qed.
(** One command [good] writes the code, and no other does. *)
Fixpoint sole (groups : list string) (z : Z) (good : cmd -> bool) (l : list cmd) : bool :=
  match l with
  | [] => false
  | c :: r => if good c then forallb (silent groups z) r else silent groups z c && sole groups z good r
  end.
Lemma silents_sound groups z v wh st : no_groups groups st -> forall l ps, forallb (silent groups z) l = true -> write_cmds v wh st l = Ok ps -> under z ps = [].
Proof.
  intros G. induction l as [|c l IH]; intros ps F H; cbn [write_cmds forallb] in *; [injection H as <-; reflexivity|]. apply andb_true_iff in F as [F1 F2].
  destruct (write_cmd v wh st c) as [a|] eqn:E; cbn [bind] in H; [|discriminate H]. destruct (write_cmds v wh st l) as [b|]; cbn [bind] in H; [|discriminate H]. injection H as <-.
  rewrite under_app, (silent_sound _ _ _ _ _ _ _ F1 G E), (IH b F2 eq_refl). reflexivity.
Qed.
Lemma sole_sound groups z good v wh st : no_groups groups st -> forall l ps, sole groups z good l = true -> write_cmds v wh st l = Ok ps ->
  exists c qs, good c = true /\ write_cmd v wh st c = Ok qs /\ under z ps = under z qs.
Proof.
  intros G. induction l as [|c l IH]; intros ps F H; cbn [write_cmds sole] in *; [discriminate F|].
  destruct (write_cmd v wh st c) as [a|] eqn:E; cbn [bind] in H; [|discriminate H]. destruct (write_cmds v wh st l) as [b|] eqn:B; cbn [bind] in H; [|discriminate H]. injection H as <-. rewrite under_app.
  destruct (good c) eqn:Gc.
  - exists c, a. split; [exact Gc|]. split; [exact E|]. rewrite (silents_sound _ _ _ _ _ G _ _ F B), app_nil_r. reflexivity.
  - apply andb_true_iff in F as [F1 F2]. destruct (IH b F2 eq_refl) as (d & qs & D1 & D2 & D3). exists d, qs. split; [exact D1|]. split; [exact D2|]. rewrite (silent_sound _ _ _ _ _ _ _ F1 G E), D3. reflexivity.
Qed.
Definition since_only (v0 : version) (cs : list cond) : bool := forallb (fun c => match c with CMin m => version_leb m v0 | _ => false end) cs.
Lemma since_holds v0 v wh st cs : since_only v0 cs = true -> version_leb v0 v = true -> all_hold v wh st cs = true.
Proof.
  unfold since_only, all_hold. rewrite !forallb_forall. intros C V c Hc. specialize (C c Hc). destruct c; try discriminate C. exact (version_leb_trans _ _ _ C V).
Qed.
Definition each_cmd (v0 : version) (z : Z) (s : string) (m : meaning) (c : cmd) : bool :=
  match c with
  | WEach cs k t w => (k =? z) && String.eqb t s && since_only v0 cs && match expected_type z with Some ty => writes_as m w ty | None => false end
  | _ => false
  end.
Definition part_is (b : part) (k : Z) (j : nat) : bool :=
  match pt_conds b with [] => true | _ => false end && (pt_code b =? k) && Nat.eqb (pt_comp b) j && match pt_conv b with WF64 => true | _ => false end.
Lemma part_is_eq b k j : part_is b k j = true -> b = mk_part [] k j WF64.
Proof.
  destruct b as [cs c i w]. unfold part_is. cbn [pt_conds pt_code pt_comp pt_conv]. intros H. apply andb_true_iff in H as [H H4]. apply andb_true_iff in H as [H H3]. apply andb_true_iff in H as [H1 H2].
  destruct cs; [|discriminate H1]. assert (c = k) as -> by lia. apply Nat.eqb_eq in H3 as ->. destruct w; try discriminate H4. reflexivity.
Qed.
Definition points_cmd (v0 : version) (s : string) (x y : Z) (z : option Z) (c : cmd) : bool :=
  match c with
  | WEachRec cs t body =>
      String.eqb t s && since_only v0 cs &&
      match body, z with
      | [b0; b1], None => part_is b0 x 0 && part_is b1 y 1 && negb (x =? y)
      | [b0; b1; b2], Some z => part_is b0 x 0 && part_is b1 y 1 && part_is b2 z 2 && negb (x =? y) && negb (x =? z) && negb (y =? z)
      | _, _ => false
      end
  | _ => false
  end.
Definition list_write (groups : list string) (v0 : version) (cmds : list cmd) (r : lrow) : bool :=
  match lr_shape r with
  | Each z m => sole groups z (each_cmd v0 z (lr_field r) m) cmds
  | Points x y z => sole groups x (points_cmd v0 (lr_field r) x y z) cmds && sole groups y (points_cmd v0 (lr_field r) x y z) cmds &&
                    match z with Some k => sole groups k (points_cmd v0 (lr_field r) x y z) cmds | None => true end
  end.
Lemma each_written z m w ty xs : expected_type z = Some ty -> writes_as m w ty = true -> Forall (expressible m z) xs -> forall qs, map_res (write_one z w) xs = Ok qs ->
  Forall2 (fun v x => understood m v = Some x) (under z qs) xs.
Proof.
  intros T A. induction 1 as [|x xs E F IH]; intros qs H; cbn [map_res] in H; [injection H as <-; constructor|]. destruct (write_one z w x) as [p|] eqn:W; cbn [bind] in H; [|discriminate H].
  destruct (map_res (write_one z w) xs) as [l|]; cbn [bind] in H; [|discriminate H]. injection H as <-. destruct (write_one_code _ _ _ _ W) as [W1 W2]. rewrite under_cons, W1, Z.eqb_refl. cbn [app].
  constructor; [|exact (IH l eq_refl)]. refine (writes_as_sound _ _ _ _ _ E _ W2). exists ty. split; assumption.
Qed.
Lemma points_written v x y z s v0 st c qs l : points_cmd v0 s x y z c = true -> version_leb v0 v = true -> st s = FList (map point_value l) -> write_cmd v true st c = Ok qs ->
  under x qs = map (fun q => VDouble (px q)) l /\ under y qs = map (fun q => VDouble (py q)) l /\ match z with Some k => under k qs = map (fun q => VDouble (pz q)) l | None => True end.
Proof.
  intros C V E W. destruct c; try discriminate C. cbn [points_cmd] in C. apply andb_true_iff in C as [C C2]. apply andb_true_iff in C as [C1 C3]. apply String.eqb_eq in C1 as ->.
  unfold write_cmd in W. cbn [cmd_conds] in W. rewrite (since_holds _ _ _ _ _ C3 V) in W. cbn [write_body] in W. rewrite E in W. cbn [as_list] in W.
  destruct body as [|b0 [|b1 [|b2 [|]]]]; try discriminate C2; destruct z as [z|]; try discriminate C2.
  - apply andb_true_iff in C2 as [C2 N]. apply andb_true_iff in C2 as [K0 K1]. apply part_is_eq in K0 as ->, K1 as ->. assert (x =? y = false) as N1 by (destruct (x =? y); [discriminate N|reflexivity]). assert (y =? x = false) as N2 by lia.
    destruct (map_res _ _) as [ls|] eqn:M; cbn [bind] in W; [|discriminate W]. injection W as <-. clear E. revert ls M.
    induction l as [|q l IH]; intros ls M; cbn [map map_res] in M; [injection M as <-; split; [reflexivity|split; reflexivity]|]. cbn [point_value as_list write_parts bind pt_conds forallb pt_code pt_conv pt_comp nth] in M. unfold write_one in M. cbn [apply_w bind] in M.
    destruct (map_res _ _) as [ls'|] eqn:M'; cbn [bind] in M; [|discriminate M]. injection M as <-. destruct (IH ls' eq_refl) as (I1 & I2 & _). cbn [concat app]. rewrite !under_cons. cbn [p_code p_value]. rewrite !Z.eqb_refl, N1, N2. cbn [app]. rewrite I1, I2.
    split; [reflexivity|split; reflexivity].
  - apply andb_true_iff in C2 as [C2 N3]. apply andb_true_iff in C2 as [C2 N2]. apply andb_true_iff in C2 as [C2 N1]. apply andb_true_iff in C2 as [C2 K2]. apply andb_true_iff in C2 as [K0 K1]. apply part_is_eq in K0 as ->, K1 as ->, K2 as ->.
    assert (x =? y = false) as A1 by (destruct (x =? y); [discriminate N1|reflexivity]). assert (y =? x = false) as A2 by lia. assert (x =? z = false) as A3 by (destruct (x =? z); [discriminate N2|reflexivity]). assert (z =? x = false) as A4 by lia.
    assert (y =? z = false) as A5 by (destruct (y =? z); [discriminate N3|reflexivity]). assert (z =? y = false) as A6 by lia.
    destruct (map_res _ _) as [ls|] eqn:M; cbn [bind] in W; [|discriminate W]. injection W as <-. clear E. revert ls M.
    induction l as [|q l IH]; intros ls M; cbn [map map_res] in M; [injection M as <-; split; [reflexivity|split; reflexivity]|]. cbn [point_value as_list write_parts bind pt_conds forallb pt_code pt_conv pt_comp nth] in M. unfold write_one in M. cbn [apply_w bind] in M.
    destruct (map_res _ _) as [ls'|] eqn:M'; cbn [bind] in M; [|discriminate M]. injection M as <-. destruct (IH ls' eq_refl) as (I1 & I2 & I3). cbn [concat app]. rewrite !under_cons. cbn [p_code p_value]. rewrite !Z.eqb_refl, A1, A2, A3, A4, A5, A6. cbn [app]. rewrite I1, I2, I3.
    split; [reflexivity|split; reflexivity].
Qed.
Lemma item_pairs_list groups v0 sp r v st ps : list_write groups v0 (sp_cmds sp) r = true -> no_groups groups st -> version_leb v0 v = true -> write_item sp v true st = Ok ps -> pairs_list ps st r.
Proof.
  intros C G V W. unfold write_item in W. unfold list_write, pairs_list in *. destruct (lr_shape r) as [z m|x y z].
  - intros xs E X. destruct (sole_sound _ _ _ _ _ _ G _ _ C W) as (c & qs & K & Wc & ->). destruct c; try discriminate K. cbn [each_cmd] in K. apply andb_true_iff in K as [K K4]. apply andb_true_iff in K as [K K3]. apply andb_true_iff in K as [K1 K2].
    assert (code = z) as -> by lia. apply String.eqb_eq in K2 as ->. unfold write_cmd in Wc. cbn [cmd_conds] in Wc. rewrite (since_holds _ _ _ _ _ K3 V) in Wc. cbn [write_body] in Wc. rewrite E in Wc. cbn [as_list] in Wc.
    destruct (expected_type z) as [ty|] eqn:T; [|discriminate K4]. exact (each_written _ _ _ _ _ T K4 X _ Wc).
  - intros l E Hz. apply andb_true_iff in C as [C C3]. apply andb_true_iff in C as [C1 C2]. unfold coordinates.
    destruct (sole_sound _ _ _ _ _ _ G _ _ C1 W) as (c1 & q1 & K1 & W1 & ->). destruct (sole_sound _ _ _ _ _ _ G _ _ C2 W) as (c2 & q2 & K2 & W2 & ->).
    split; [exact (proj1 (points_written _ _ _ _ _ _ _ _ _ _ K1 V E W1))|]. split; [exact (proj1 (proj2 (points_written _ _ _ _ _ _ _ _ _ _ K2 V E W2)))|].
    destruct z as [z|]; [|exact Hz]. destruct (sole_sound _ _ _ _ _ _ G _ _ C3 W) as (c3 & q3 & K3 & W3 & ->). exact (proj2 (proj2 (points_written _ _ _ _ _ _ _ _ _ _ K3 V E W3))).
Qed.

(** * The types *)
Definition entity_list_reads (e : string * string * list lrow) : bool :=
  let '(ty, kind, rows) := e in
  match from_type_string (str ty) with
  | Some t => String.eqb (sp_name (it_spec t)) kind && groups_marked (sp_arms (it_spec t)) && match sp_created (it_spec t) with [] => true | _ => false end && forallb (list_read (it_spec t)) rows &&
              negb (seqb (str ty) (str "ENDSEC") || seqb (str ty) (str "ENDBLK")) && negb (seqb (str ty) (str "DIMENSION"))
  | None => false
  end.
Lemma entity_lists_read : forallb entity_list_reads entity_lists = true.
Proof. vm_compute. reflexivity. Qed.
Lemma entity_list_follows ty kind rows ps nx rest o r : In (ty, kind, rows) entity_lists -> plain ps -> p_code nx = 0 ->
  read_entity (Ok (mk_pair 0 (VStr (str ty))) :: map Ok ps ++ Ok nx :: rest) = Ok (o, r) ->
  r = Ok nx :: rest /\ exists x, o = Some x /\ kind_of x = kind /\ forall w, In w rows -> list_follows ps (snd x) w.
Proof.
  intros Hin P Z H. pose proof (proj1 (forallb_forall _ _) entity_lists_read _ Hin) as C. unfold entity_list_reads in C. destruct (from_type_string (str ty)) as [t|] eqn:E; [|discriminate C].
  apply andb_true_iff in C as [C C6]. apply andb_true_iff in C as [C C5]. apply andb_true_iff in C as [C C4]. apply andb_true_iff in C as [C C3]. apply andb_true_iff in C as [C1 C2]. apply String.eqb_eq in C1. destruct (sp_created (it_spec t)) eqn:Cr; [|discriminate C3].
  unfold read_entity in H. set (fu := length _) in H. clearbody fu. cbn [read_entity_fuel p_code p_value assert_string bind] in H. change (0 =? 0) with true in H. cbn iota in H. apply negb_true_iff in C5, C6. rewrite C5, C6, E in H.
  destruct (read_item (it_spec t) (map Ok ps ++ Ok nx :: rest)) as [[y q]|] eqn:R; cbn [bind] in H; [|discriminate H]. destruct (item_lists _ _ _ _ _ _ C2 Cr P Z R) as (-> & st & -> & F). injection H as <- <-.
  split; [reflexivity|]. exists (t, st). split; [reflexivity|]. split; [exact C1|]. intros w Hw. apply F. rewrite forallb_forall in C4. exact (C4 w Hw).
Qed.
Definition entity_list_written (e : string * string * list lrow) : bool :=
  let '(ty, kind, rows) := e in
  match type_named entities kind with
  | Some t => negb (String.eqb kind "Insert" || String.eqb kind "Polyline" || has_mtext kind) && seqb (sp_type (it_spec t)) (str ty) && type_since (it_spec t) (list_since ty) &&
              forallb (fun r => elsewhere ty r || list_write entity_groups (list_since ty) (sp_cmds (it_spec t)) r) rows
  | None => false
  end.
Lemma entity_lists_written : forallb entity_list_written entity_lists = true.
Proof. vm_compute. reflexivity. Qed.
Lemma entity_pairs_list ty kind rows v e ps : In (ty, kind, rows) entity_lists -> entity_type (en_specific e) = kind -> version_leb (list_since ty) v = true ->
  no_groups entity_groups (entity_store e) -> FileModel.write_entity v true e = Ok ps ->
  exists own, ps = mk_pair 0 (VStr (str ty)) :: own /\ forall w, In w rows -> elsewhere ty w = false -> pairs_list own (entity_store e) w.
Proof.
  intros Hin K V G H. pose proof (proj1 (forallb_forall _ _) entity_lists_written _ Hin) as C. unfold entity_list_written in C. destruct (type_named entities kind) as [t|] eqn:T; [|discriminate C].
  apply andb_true_iff in C as [C C4]. apply andb_true_iff in C as [C C3]. apply andb_true_iff in C as [C1 C2]. apply seqb_eq in C2. apply negb_true_iff in C1. apply orb_false_iff in C1 as [C1 M]. apply orb_false_iff in C1 as [NI NP].
  assert (write_typed t v true (entity_store e) (Ok []) = Ok ps) as W.
  { unfold FileModel.write_entity in H. cbv zeta in H. destruct (en_specific e) as [q l|q l|x|n x|n x|n] eqn:Es; cbn [entity_type] in K, H.
    - rewrite <- K in NI. discriminate NI.
    - rewrite <- K in NP. discriminate NP.
    - rewrite K, T, M in H. exact H.
    - rewrite K, T, M in H. exact H.
    - rewrite K, T, M in H. exact H.
    - rewrite K, T, M in H. exact H. }
  unfold write_typed in W. rewrite (since_supported _ _ _ C3 V) in W. destruct (write_item _ _ _ _) as [own|] eqn:I; cbn [bind] in W; [|discriminate W]. injection W as <-. exists own. rewrite C2, app_nil_r. split; [reflexivity|]. intros w Hw Ew.
  rewrite forallb_forall in C4. specialize (C4 w Hw). rewrite Ew in C4. cbn [orb] in C4. exact (item_pairs_list _ _ _ _ _ _ _ C4 G V I).
Qed.
Definition object_list_ok (e : string * string * list lrow) : bool :=
  let '(ty, kind, rows) := e in
  existsb (fun t => seqb (sp_type (it_spec t)) (str ty)) objects &&
  forallb (fun t => negb (seqb (sp_type (it_spec t)) (str ty)) ||
    (String.eqb (sp_name (it_spec t)) kind && groups_marked (sp_arms (it_spec t)) && match sp_created (it_spec t) with [] => true | _ => false end && type_since (it_spec t) (list_since ty) &&
     forallb (list_read (it_spec t)) rows && forallb (fun r => elsewhere ty r || list_write entity_groups (list_since ty) (sp_cmds (it_spec t)) r) rows)) objects.
Lemma object_lists_ok : forallb object_list_ok object_lists = true.
Proof. vm_compute. reflexivity. Qed.
Lemma object_list_checked ty kind rows t : In (ty, kind, rows) object_lists -> In t objects -> sp_type (it_spec t) = str ty ->
  sp_name (it_spec t) = kind /\ groups_marked (sp_arms (it_spec t)) = true /\ sp_created (it_spec t) = [] /\ type_since (it_spec t) (list_since ty) = true /\
  forallb (list_read (it_spec t)) rows = true /\ forallb (fun r => elsewhere ty r || list_write entity_groups (list_since ty) (sp_cmds (it_spec t)) r) rows = true.
Proof.
  intros H Ht E. pose proof (proj1 (forallb_forall _ _) object_lists_ok _ H) as C. unfold object_list_ok in C. apply andb_true_iff in C as [_ C]. pose proof (proj1 (forallb_forall _ _) C t Ht) as D. cbn beta in D. rewrite E, seqb_refl in D. cbn [negb orb] in D.
  apply andb_true_iff in D as [D D6]. apply andb_true_iff in D as [D D5]. apply andb_true_iff in D as [D D4]. apply andb_true_iff in D as [D D3]. apply andb_true_iff in D as [D1 D2]. apply String.eqb_eq in D1. destruct (sp_created (it_spec t)); [|discriminate D3]. repeat split; assumption.
Qed.
Lemma object_list_follows ty kind rows t ps nx rest o r : In (ty, kind, rows) object_lists -> In t objects -> sp_type (it_spec t) = str ty -> plain ps -> p_code nx = 0 ->
  read_item (it_spec t) (map Ok ps ++ Ok nx :: rest) = Ok (o, r) -> sp_name (it_spec t) = kind /\ r = Ok nx :: rest /\ exists st, o = Some st /\ forall w, In w rows -> list_follows ps st w.
Proof.
  intros H Ht E P Z R. destruct (object_list_checked _ _ _ _ H Ht E) as (K & G & Cr & _ & F & _). split; [exact K|]. destruct (item_lists _ _ _ _ _ _ G Cr P Z R) as (-> & st & -> & L). split; [reflexivity|]. exists st. split; [reflexivity|].
  intros w Hw. apply L. rewrite forallb_forall in F. exact (F w Hw).
Qed.
Lemma object_pairs_list ty kind rows t v st ps : In (ty, kind, rows) object_lists -> In t objects -> sp_type (it_spec t) = str ty -> version_leb (list_since ty) v = true ->
  no_groups entity_groups st -> write_typed t v true st (Ok []) = Ok ps ->
  exists own, ps = mk_pair 0 (VStr (str ty)) :: own /\ forall w, In w rows -> elsewhere ty w = false -> pairs_list own st w.
Proof.
  intros H Ht E V G W. destruct (object_list_checked _ _ _ _ H Ht E) as (_ & _ & _ & S & _ & F).
  unfold write_typed in W. rewrite (since_supported _ _ _ S V) in W. destruct (write_item _ _ _ _) as [own|] eqn:I; cbn [bind] in W; [|discriminate W]. injection W as <-. exists own. rewrite E, app_nil_r. split; [reflexivity|]. intros w Hw Ew.
  rewrite forallb_forall in F. specialize (F w Hw). rewrite Ew in F. cbn [orb] in F. exact (item_pairs_list _ _ _ _ _ _ _ F G V I).
Qed.
Definition table_list_ok (e : string * list lrow) : bool :=
  let '(ty, rows) := e in
  existsb (fun k => seqb (table_type k) (str ty)) table_kinds &&
  forallb (fun k => negb (seqb (table_type k) (str ty)) ||
    (groups_marked (sp_arms (it_spec (table_spec k))) && match sp_created (it_spec (table_spec k)) with [] => true | _ => false end &&
     forallb (list_read (it_spec (table_spec k))) rows && forallb (list_write table_groups R2000 (sp_cmds (it_spec (table_spec k)))) rows)) table_kinds.
Lemma table_lists_ok : forallb table_list_ok table_lists = true.
Proof. vm_compute. reflexivity. Qed.
Lemma table_list_checked k ty rows : In (ty, rows) table_lists -> table_type k = str ty ->
  groups_marked (sp_arms (it_spec (table_spec k))) = true /\ sp_created (it_spec (table_spec k)) = [] /\
  forallb (list_read (it_spec (table_spec k))) rows = true /\ forallb (list_write table_groups R2000 (sp_cmds (it_spec (table_spec k)))) rows = true.
Proof.
  intros H E. pose proof (proj1 (forallb_forall _ _) table_lists_ok _ H) as C. unfold table_list_ok in C. apply andb_true_iff in C as [_ C]. pose proof (proj1 (forallb_forall _ _) C k (kind_listed k)) as D. cbn beta in D. rewrite E, seqb_refl in D. cbn [negb orb] in D.
  apply andb_true_iff in D as [D D4]. apply andb_true_iff in D as [D D3]. apply andb_true_iff in D as [D1 D2]. destruct (sp_created (it_spec (table_spec k))); [|discriminate D2]. repeat split; assumption.
Qed.
Lemma table_list_follows k ty rows ps nx rest o r : In (ty, rows) table_lists -> table_type k = str ty -> plain ps -> p_code nx = 0 ->
  read_item (it_spec (table_spec k)) (map Ok ps ++ Ok nx :: rest) = Ok (o, r) -> r = Ok nx :: rest /\ exists st, o = Some st /\ forall w, In w rows -> list_follows ps st w.
Proof.
  intros H E P Z R. destruct (table_list_checked _ _ _ H E) as (G & Cr & F & _). destruct (item_lists _ _ _ _ _ _ G Cr P Z R) as (-> & st & -> & L). split; [reflexivity|]. exists st. split; [reflexivity|].
  intros w Hw. apply L. rewrite forallb_forall in F. exact (F w Hw).
Qed.
Lemma table_pairs_list k ty rows v x ps : In (ty, rows) table_lists -> table_type k = str ty -> version_leb R2000 v = true -> no_groups table_groups (titem_store x) -> write_titem k v true x = Ok ps ->
  exists own, ps = mk_pair 0 (VStr (str ty)) :: own /\ forall w, In w rows -> pairs_list own (titem_store x) w.
Proof.
  intros H E V G W. destruct (table_list_checked _ _ _ H E) as (_ & _ & _ & F). unfold write_titem in W. destruct (write_item _ _ _ _) as [own|] eqn:I; cbn [bind] in W; [|discriminate W]. injection W as <-. exists own. rewrite E. split; [reflexivity|]. intros w Hw.
  rewrite forallb_forall in F. exact (item_pairs_list _ _ _ _ _ _ _ (F w Hw) G V I).
Qed.

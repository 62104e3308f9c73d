(** Reading an item without groups is a fold over its pairs. *)
From Verif Require Import Base TextProofs F64Model CodePairModel SpecModel SpecSpec SpecCheck SpecProofs DocSpec DrawingModel FileModel EntityData TableData ObjectData DocProofs OrderSpec.
Open Scope string_scope.
Open Scope list_scope.
Open Scope Z_scope.
Set Default Goal Selector "!".

(** * The loop without the stream *)
Lemma act_anywhere a p st regs it : consumes a = false -> act a p st regs it = (let? (x, _) := act a p st regs [] in Ok (x, it)).
Proof.
  destruct a; cbn [act consumes]; intros C; try discriminate C; try reflexivity.
  - destruct (apply_r r p); reflexivity.
  - destruct (apply_r r p); reflexivity.
  - destruct (apply_r r p); reflexivity.
  - destruct (apply_r r p); cbn [bind]; [|reflexivity]. destruct (set_last _ _ _); reflexivity.
  - destruct (apply_mr m p); reflexivity.
  - destruct (assert_string p); cbn [bind]; [|reflexivity]. destruct (mark _ _ _); reflexivity.
Qed.
Lemma acts_anywhere p l : forallb (fun x => negb (consumes x)) l = true -> forall st regs it, acts l p st regs it = (let? (x, _) := acts l p st regs [] in Ok (x, it)).
Proof.
  induction l as [|a l IH]; intros C st regs it; cbn [acts forallb] in *; [reflexivity|]. apply andb_true_iff in C as [C1 C2]. apply negb_true_iff in C1. rewrite (act_anywhere a p st regs it C1).
  destruct (act a p st regs []) as [[[st1 regs1] it1]|e] eqn:E; cbn [bind fst snd]; [|reflexivity]. rewrite (act_rest _ _ _ _ _ _ _ _ C1 E). apply (IH C2).
Qed.
Lemma step_anywhere arms p st regs it : groups_marked arms = true -> p_code p <> 102 -> p_code p <> 1001 -> step arms p st regs it = (let? (x, _) := step arms p st regs [] in Ok (x, it)).
Proof.
  intros G N1 N2. unfold step. destruct (find_arm arms (p_code p) regs) as [l|] eqn:F; [|reflexivity]. destruct (find_arm_In _ _ _ _ F) as (a & Hin & Ha & <-).
  unfold groups_marked in G. rewrite forallb_forall in G. specialize (G a Hin). apply orb_true_iff in G as [G|G]; [lia|]. apply (acts_anywhere _ _ G).
Qed.
Fixpoint feeds (arms : list arm) (ps : list pair) (st : store) (regs : list Z) : res (store * list Z) :=
  match ps with
  | [] => Ok (st, regs)
  | p :: r => let? (x, _) := step arms p st regs [] in feeds arms r (fst x) (snd x)
  end.
Lemma run_feeds arms eof nx rest : groups_marked arms = true -> p_code nx = 0 -> forall ps fuel st regs, ungrouped ps -> (length ps < fuel)%nat ->
  run arms eof fuel (map Ok ps ++ Ok nx :: rest) st regs = (let? x := feeds arms ps st regs in Ok (x, Ok nx :: rest)).
Proof.
  intros G Z. induction ps as [|p ps IH]; intros fuel st regs P L; (destruct fuel as [|f]; [cbn [length] in L; lia|]); cbn [run map app feeds].
  - rewrite Z. reflexivity.
  - inversion P as [|x l (P0 & P1 & P2) P4]; subst x l. destruct (p_code p =? 0) eqn:E0; [lia|]. rewrite (step_anywhere arms p st regs _ G P1 P2).
    destruct (step arms p st regs []) as [[x it1]|e]; cbn [bind]; [|reflexivity]. apply IH; [exact P4|cbn [length] in L; lia].
Qed.
Definition after (sp : spec) (x : store * list Z) : option store :=
  if forallb (fun '(n, z) => nth n (snd x) 0 =? z) (sp_created sp) then Some (fold_left (fun st f => finish f st) (sp_finals sp) (fst x)) else None.
Lemma item_feeds sp ps nx rest : groups_marked (sp_arms sp) = true -> p_code nx = 0 -> ungrouped ps ->
  read_item sp (map Ok ps ++ Ok nx :: rest) = (let? x := feeds (sp_arms sp) ps (default_of sp) (sp_regs sp) in Ok (after sp x, Ok nx :: rest)).
Proof.
  intros G Z P. unfold read_item. rewrite (run_feeds _ _ _ _ G Z ps _ _ _ P) by (rewrite app_length, map_length; cbn [length]; lia).
  destruct (feeds _ _ _ _) as [[st regs]|e]; cbn [bind]; [|reflexivity]. unfold after. cbn [fst snd]. destruct (forallb _ _); reflexivity.
Qed.

(** * Codes that are not used *)
Definition uses (arms : list arm) (c : Z) : bool := existsb (fun a => a_code a =? c) arms.
Lemma unused_arm arms c regs : uses arms c = false -> find_arm arms c regs = None.
Proof. unfold uses. induction arms as [|a arms IH]; cbn [existsb find_arm]; [reflexivity|]. intros H. apply orb_false_iff in H as [H1 H2]. rewrite H1. exact (IH H2). Qed.
Lemma feeds_used arms ps : forall st regs, feeds arms (filter (fun p => uses arms (p_code p)) ps) st regs = feeds arms ps st regs.
Proof.
  induction ps as [|p ps IH]; intros st regs; [reflexivity|]. cbn [filter feeds]. destruct (uses arms (p_code p)) eqn:U; cbn [feeds].
  - destruct (step arms p st regs []) as [[x it]|e]; cbn [bind]; [apply IH|reflexivity].
  - unfold step. rewrite (unused_arm _ _ _ U). cbn [bind fst snd]. apply IH.
Qed.
Lemma item_unused sp ps qs nx rest : groups_marked (sp_arms sp) = true -> p_code nx = 0 -> ungrouped ps -> ungrouped qs ->
  filter (fun p => uses (sp_arms sp) (p_code p)) ps = filter (fun p => uses (sp_arms sp) (p_code p)) qs ->
  read_item sp (map Ok ps ++ Ok nx :: rest) = read_item sp (map Ok qs ++ Ok nx :: rest).
Proof. intros G Z P Q E. rewrite !item_feeds by assumption. rewrite <- (feeds_used _ ps), E, feeds_used. reflexivity. Qed.

(** * Order *)
Definition value_at (s : string) (ss : list string) (vs : list fval) (x : fval) : fval := upd_all (fun _ => x) ss vs s.
Lemma upd_all_at s ss : forall vs st st', st s = st' s -> upd_all st ss vs s = upd_all st' ss vs s.
Proof.
  induction ss as [|t ss IH]; intros vs st st' H; [exact H|]. destruct vs as [|v vs]; [exact H|]. cbn [upd_all]. apply IH. unfold upd. destruct (String.eqb s t); [reflexivity|exact H].
Qed.
(** What one pair does to one field. *)
Definition act_at (p : pair) (s : string) (x : fval) (a : action) : fval :=
  match a with
  | ASet t r => match apply_r r p with Ok v => if String.eqb s t then v else x | Err _ => x end
  | APush t r => match apply_r r p with Ok v => if String.eqb s t then push x v else x | Err _ => x end
  | AMulti ss m => match apply_mr m p with Ok vs => value_at s ss vs x | Err _ => x end
  | _ => x
  end.
Definition act_ok (p : pair) (a : action) : bool :=
  match a with
  | ASet _ r | APush _ r => match apply_r r p with Ok _ => true | Err _ => false end
  | AMulti _ m => match apply_mr m p with Ok _ => true | Err _ => false end
  | _ => false
  end.
Definition plain_action (a : action) : bool := match a with ASet _ _ | APush _ _ | AMulti _ _ => true | _ => false end.
Lemma acts_at p l : forallb plain_action l = true -> forall st regs,
  if forallb (act_ok p) l then exists st', acts l p st regs [] = Ok (st', regs, []) /\ forall s, st' s = fold_left (act_at p s) l (st s) else exists e, acts l p st regs [] = Err e.
Proof.
  induction l as [|a l IH]; intros C st regs; cbn [forallb acts fold_left] in *; [exists st; split; reflexivity|]. apply andb_true_iff in C as [C1 C2].
  assert (A : if act_ok p a then exists st1, act a p st regs [] = Ok (st1, regs, []) /\ forall s, st1 s = act_at p s (st s) a else exists e, act a p st regs [] = Err e).
  { destruct a; try discriminate C1; cbn [act_ok act act_at].
    - destruct (apply_r r p) as [v|e]; cbn [bind]; [|exists e; reflexivity]. eexists. split; [reflexivity|]. intros t. unfold upd. destruct (String.eqb t s); reflexivity.
    - destruct (apply_r r p) as [v|e]; cbn [bind]; [|exists e; reflexivity]. eexists. split; [reflexivity|]. intros t. unfold upd. destruct (String.eqb t s) eqn:E; [apply String.eqb_eq in E as ->|]; reflexivity.
    - destruct (apply_mr m p) as [vs|e]; cbn [bind]; [|exists e; reflexivity]. eexists. split; [reflexivity|]. intros t. unfold value_at. apply upd_all_at. reflexivity. }
  destruct (act_ok p a); cbn [andb].
  - destruct A as (st1 & -> & A). cbn [bind fst snd]. specialize (IH C2 st1 regs). destruct (forallb (act_ok p) l); [|exact IH]. destruct IH as (st' & H & K). exists st'. split; [exact H|]. intros s. rewrite K, A. reflexivity.
  - destruct A as (e & ->). exists e. reflexivity.
Qed.
(** The arms of a type without order: no conditions, fields are set or appended to, and each field has one code. *)
Definition plain_arm (a : arm) : bool := (a_code a =? 102) || (a_code a =? 1001) || (match a_guards a with [] => true | _ => false end && forallb plain_action (a_actions a)).
Definition arm_slots (a : arm) : list string := flat_map action_slots (a_actions a).
Definition one_code (arms : list arm) (s : string) : bool :=
  match filter (fun a => memb s (arm_slots a)) arms with [] => true | a :: r => forallb (fun b => a_code b =? a_code a) r end.
Definition actions_of (arms : list arm) (p : pair) : list action := match find_arm arms (p_code p) [] with Some l => l | None => [] end.
Definition pair_at (arms : list arm) (s : string) (x : fval) (p : pair) : fval := fold_left (act_at p s) (actions_of arms p) x.
Lemma find_arm_regs arms c regs : forallb plain_arm arms = true -> c <> 102 -> c <> 1001 -> find_arm arms c regs = find_arm arms c [].
Proof.
  intros P N1 N2. induction arms as [|a arms IH]; [reflexivity|]. cbn [forallb find_arm] in *. apply andb_true_iff in P as [P1 P2]. rewrite (IH P2). destruct (a_code a =? c) eqn:E; [|reflexivity]. unfold plain_arm in P1.
  destruct (a_guards a); [reflexivity|]. cbn [andb] in P1. rewrite orb_false_r in P1. lia.
Qed.
Lemma actions_plain arms p : forallb plain_arm arms = true -> p_code p <> 102 -> p_code p <> 1001 -> forallb plain_action (actions_of arms p) = true.
Proof.
  intros P N1 N2. unfold actions_of. destruct (find_arm arms (p_code p) []) as [l|] eqn:F; [|reflexivity]. destruct (find_arm_In _ _ _ _ F) as (a & Hin & Ha & <-). rewrite forallb_forall in P. specialize (P a Hin).
  unfold plain_arm in P. apply orb_true_iff in P as [P|P]; [lia|]. apply andb_true_iff in P as [_ P]. exact P.
Qed.
Lemma feeds_at arms : forallb plain_arm arms = true -> forall ps st regs, ungrouped ps ->
  if forallb (fun p => forallb (act_ok p) (actions_of arms p)) ps then exists st', feeds arms ps st regs = Ok (st', regs) /\ forall s, st' s = fold_left (pair_at arms s) ps (st s) else exists e, feeds arms ps st regs = Err e.
Proof.
  intros P. induction ps as [|p ps IH]; intros st regs U; cbn [forallb feeds fold_left]; [exists st; split; reflexivity|]. inversion U as [|x l (P0 & P1 & P2) U']; subst x l.
  assert (S : step arms p st regs [] = acts (actions_of arms p) p st regs []) by (unfold step, actions_of; rewrite (find_arm_regs arms (p_code p) regs P P1 P2); destruct (find_arm _ _ _); reflexivity). rewrite S.
  pose proof (acts_at p (actions_of arms p) (actions_plain arms p P P1 P2) st regs) as A. destruct (forallb (act_ok p) (actions_of arms p)); cbn [andb].
  - destruct A as (st1 & -> & A). cbn [bind fst snd]. specialize (IH st1 regs U'). destruct (forallb _ ps); [|exact IH]. destruct IH as (st' & H & K). exists st'. split; [exact H|]. intros s. rewrite K. unfold pair_at at 3. rewrite A. reflexivity.
  - destruct A as (e & ->). exists e. reflexivity.
Qed.
Lemma act_at_other p s x a : memb s (action_slots a) = false -> act_at p s x a = x.
Proof.
  intros M. destruct a; cbn [act_at action_slots] in *; try reflexivity.
  - destruct (apply_r r p); [|reflexivity]. rewrite (memb_one _ _ M). reflexivity.
  - destruct (apply_r r p); [|reflexivity]. rewrite (memb_one _ _ M). reflexivity.
  - destruct (apply_mr m p); [|reflexivity]. unfold value_at. rewrite (upd_all_keeps _ _ M). reflexivity.
Qed.
Lemma fold_at_other p s l : memb s (flat_map action_slots l) = false -> forall x, fold_left (act_at p s) l x = x.
Proof.
  induction l as [|a l IH]; intros M x; [reflexivity|]. cbn [flat_map fold_left] in *. unfold memb in M. rewrite existsb_app in M. apply orb_false_iff in M as [M1 M2]. rewrite (act_at_other p s x a M1). exact (IH M2 x).
Qed.
Lemma fold_filter {A B} (f : A -> B -> A) (t : B -> bool) : (forall x b, t b = false -> f x b = x) -> forall l x, fold_left f l x = fold_left f (filter t l) x.
Proof. intros H. induction l as [|b l IH]; intros x; [reflexivity|]. cbn [fold_left filter]. destruct (t b) eqn:E; cbn [fold_left]; [apply IH|]. rewrite (H x b E). apply IH. Qed.
Lemma one_code_at arms s : one_code arms s = true -> exists c, forall p x, p_code p <> c -> pair_at arms s x p = x.
Proof.
  intros H. unfold one_code in H.
  assert (K : exists c, forall a, In a arms -> a_code a <> c -> memb s (arm_slots a) = false).
  { destruct (filter _ arms) as [|b r] eqn:F.
    - exists 0. intros a Ia _. destruct (memb s (arm_slots a)) eqn:M; [|reflexivity]. assert (X : In a []) by (rewrite <- F; apply filter_In; split; assumption). contradiction X.
    - exists (a_code b). intros a Ia N. destruct (memb s (arm_slots a)) eqn:M; [|reflexivity]. assert (X : In a (b :: r)) by (rewrite <- F; apply filter_In; split; assumption). destruct X as [X|X]; [subst a; contradiction N; reflexivity|]. rewrite forallb_forall in H. specialize (H a X). lia. }
  destruct K as (c & K). exists c. intros p x N. unfold pair_at, actions_of. destruct (find_arm arms (p_code p) []) as [l|] eqn:F; [|reflexivity]. destruct (find_arm_In _ _ _ _ F) as (a & Hin & Ha & <-). apply fold_at_other. apply (K a Hin). lia.
Qed.
Lemma same_in ps qs : same_per_code ps qs -> forall p, In p ps -> In p qs.
Proof. intros H p I. assert (J : In p (filter (fun x => p_code x =? p_code p) ps)) by (apply filter_In; split; [exact I|lia]). rewrite H in J. apply filter_In in J. apply J. Qed.
Lemma same_sym ps qs : same_per_code ps qs -> same_per_code qs ps.
Proof. intros H c. symmetry. apply H. Qed.
Lemma same_forallb (f : pair -> bool) ps qs : same_per_code ps qs -> forallb f ps = forallb f qs.
Proof.
  intros H. destruct (forallb f ps) eqn:A, (forallb f qs) eqn:B; try reflexivity.
  - rewrite <- B. symmetry. apply forallb_forall. intros p I. rewrite forallb_forall in A. apply A, (same_in _ _ (same_sym _ _ H)), I.
  - rewrite <- A. apply forallb_forall. intros p I. rewrite forallb_forall in B. apply B, (same_in _ _ H), I.
Qed.
Lemma same_ungrouped ps qs : same_per_code ps qs -> ungrouped ps -> ungrouped qs.
Proof. intros H U. unfold ungrouped in *. rewrite Forall_forall in *. intros p I. apply U, (same_in _ _ (same_sym _ _ H)), I. Qed.
(** The same fields, apart from those that several codes share. *)
Definition ordered_only (arms : list arm) (except : list string) : bool :=
  forallb (fun a => forallb (fun s => memb s except || one_code arms s) (arm_slots a)) arms.
Lemma untouched arms s : (forall a, In a arms -> memb s (arm_slots a) = false) -> one_code arms s = true.
Proof.
  intros H. unfold one_code. destruct (filter _ arms) as [|b r] eqn:F; [reflexivity|]. assert (X : In b (filter (fun a => memb s (arm_slots a)) arms)) by (rewrite F; left; reflexivity). apply filter_In in X as [X M]. rewrite (H b X) in M. discriminate M.
Qed.
Lemma ordered_only_one arms except s : ordered_only arms except = true -> memb s except = false -> one_code arms s = true.
Proof.
  intros O M. destruct (existsb (fun a => memb s (arm_slots a)) arms) eqn:E.
  - apply existsb_exists in E as (a & Ia & Ma). unfold ordered_only in O. rewrite forallb_forall in O. specialize (O a Ia). rewrite forallb_forall in O. apply memb_In in Ma. specialize (O s Ma). rewrite M in O. exact O.
  - apply untouched. intros a Ia. destruct (memb s (arm_slots a)) eqn:Ma; [|reflexivity]. assert (X : existsb (fun a => memb s (arm_slots a)) arms = true) by (apply existsb_exists; exists a; split; assumption). congruence.
Qed.
Definition agree {A} (R : A -> A -> Prop) (a b : res A) : Prop := match a, b with Ok x, Ok y => R x y | Err _, Err _ => True | _, _ => False end.
Lemma feeds_same arms except ps qs st regs : forallb plain_arm arms = true -> ordered_only arms except = true -> ungrouped ps -> same_per_code ps qs ->
  agree (fun x y => snd x = snd y /\ forall s, memb s except = false -> fst x s = fst y s) (feeds arms ps st regs) (feeds arms qs st regs).
Proof.
  intros P O U S. pose proof (feeds_at arms P ps st regs U) as A. pose proof (feeds_at arms P qs st regs (same_ungrouped _ _ S U)) as B. rewrite (same_forallb _ _ _ S) in A. destruct (forallb _ qs).
  - destruct A as (a & -> & A), B as (b & -> & B). cbn [agree fst snd]. split; [reflexivity|]. intros s M. rewrite A, B. destruct (one_code_at arms s (ordered_only_one _ _ _ O M)) as (c & C).
    rewrite (fold_filter (pair_at arms s) (fun p => p_code p =? c)) by (intros x p N; apply C; lia). rewrite (S c). symmetry. apply fold_filter. intros x p N. apply C. lia.
  - destruct A as (e & ->), B as (e' & ->). exact Logic.I.
Qed.
(** The finishing steps look only at fields. *)
Lemma cleared_same parts : forall st st' s, (forall t, st t = st' t) -> fold_left (fun st p => upd st p (FList [])) parts st s = fold_left (fun st p => upd st p (FList [])) parts st' s.
Proof. induction parts as [|x l IH]; intros st st' s H; [apply H|]. cbn [fold_left]. apply IH. intros t. unfold upd. destruct (String.eqb t x); [reflexivity|apply H]. Qed.
Lemma finish_same f st st' : (forall t, st t = st' t) -> forall s, finish f st s = finish f st' s.
Proof.
  intros H s. destruct f; cbn [finish]; cbv zeta.
  - apply cleared_same. intros t. unfold upd. destruct (String.eqb t s0); [|apply H]. rewrite (H s0). rewrite (map_ext (fun p => as_list (st p)) (fun p => as_list (st' p))) by (intros p; rewrite H; reflexivity). reflexivity.
  - apply cleared_same. intros t. unfold upd. destruct (String.eqb t s0); [|apply H]. rewrite (H s0). rewrite (flat_map_ext (fun p => as_list (st p)) (fun p => as_list (st' p))) by (intros p; rewrite H; reflexivity). reflexivity.
  - unfold upd. destruct (String.eqb s part); [reflexivity|]. destruct (String.eqb s s0); [|apply H]. rewrite (H part). reflexivity.
Qed.
Lemma finals_same fs : forall st st', (forall t, st t = st' t) -> forall s, fold_left (fun st f => finish f st) fs st s = fold_left (fun st f => finish f st) fs st' s.
Proof. induction fs as [|f fs IH]; intros st st' H s; [apply H|]. cbn [fold_left]. apply IH. apply finish_same, H. Qed.

Definition unordered (sp : spec) (except : list string) : bool :=
  groups_marked (sp_arms sp) && forallb plain_arm (sp_arms sp) && ordered_only (sp_arms sp) except && match sp_created sp with [] => true | _ => false end &&
  match except with [] => true | _ => match sp_finals sp with [] => true | _ => false end end.
Definition same_store (except : list string) (st st' : store) : Prop := forall s, ~ In s except -> st s = st' s.
Lemma item_same sp except ps qs nx rest : unordered sp except = true -> p_code nx = 0 -> ungrouped ps -> same_per_code ps qs ->
  agree (fun x y => exists st st', x = (Some st, Ok nx :: rest) /\ y = (Some st', Ok nx :: rest) /\ same_store except st st') (read_item sp (map Ok ps ++ Ok nx :: rest)) (read_item sp (map Ok qs ++ Ok nx :: rest)).
Proof.
  intros H Z U S. unfold unordered in H. apply andb_true_iff in H as [H F]. apply andb_true_iff in H as [H C]. apply andb_true_iff in H as [H O]. apply andb_true_iff in H as [G P].
  rewrite !item_feeds by (try assumption; apply (same_ungrouped _ _ S U)). pose proof (feeds_same _ except ps qs (default_of sp) (sp_regs sp) P O U S) as A.
  destruct (feeds _ ps _ _) as [x|e], (feeds _ qs _ _) as [y|e']; cbn [agree bind] in *; try exact A. destruct A as [_ A]. unfold after. destruct (sp_created sp); [|discriminate C]. cbn [forallb].
  eexists. eexists. split; [reflexivity|]. split; [reflexivity|]. intros s N.
  assert (M : memb s except = false) by (destruct (memb s except) eqn:M; [apply memb_In in M; contradiction|reflexivity]).
  destruct except as [|t except]; [apply finals_same; intros t; apply A; reflexivity|]. destruct (sp_finals sp); [|discriminate F]. exact (A s M).
Qed.

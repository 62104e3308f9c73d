(** The readers of dictionaries follow DictSpec.v. *)
From Verif Require Import Base CodePairModel CodePairSpec VersionModel StreamModel SpecModel SpecSpec SpecCheck SpecProofs DocSpec ObjectData DocProofs CustomModel CustomProofs DictSpec.
Open Scope string_scope.
Open Scope list_scope.
Open Scope Z_scope.
Set Default Goal Selector "!".

Definition says (v : value) (o : option N) : Prop := exists h, o = Some h /\ forall h', understood Hex v = Some (FHandle h') -> h = h'.
Definition answers (k name : rstring) (ps : list pair) (m m' : entries) : Prop :=
  match given k name ps with Some v => says v (get_entry k m') | None => get_entry k m' = get_entry k m end.
Lemma get_insert k k' h m : get_entry k (insert_entry k' h m) = if seqb k k' then Some h else get_entry k m.
Proof.
  induction m as [|[a b] m IH]; cbn [insert_entry get_entry]; [reflexivity|]. destruct (seqb k' a) eqn:E; cbn [get_entry].
  - apply seqb_eq in E as ->. destruct (seqb k a); reflexivity.
  - rewrite IH. destruct (seqb k a) eqn:F; [|reflexivity]. apply seqb_eq in F as ->. destruct (seqb a k') eqn:Q; [|reflexivity]. apply seqb_eq in Q as ->. rewrite seqb_refl in E. discriminate E.
Qed.
Lemma handle_says p h : as_handle p = Ok h -> forall h', understood Hex (p_value p) = Some (FHandle h') -> h = h'.
Proof.
  intros H h' U. assert (apply_r RHandle p = Ok (FHandle h)) as A by (cbn [apply_r]; rewrite H; reflexivity). pose proof (reads_as_sound Hex RHandle _ _ _ eq_refl U A) as Q. injection Q as ->. reflexivity.
Qed.
Lemma common_rest p st it st' it' : p_code p <> 102 -> p_code p <> 1001 -> common_apply p st it = Ok (st', it') -> it' = it.
Proof.
  intros A B H. unfold common_apply in H. destruct (step ocommon_arms p st [] it) as [[[x y] z]|] eqn:E; cbn [bind] in H; [|discriminate H]. injection H as _ <-. refine (step_rest ocommon_arms p _ _ _ _ _ _ _ A B E). vm_compute. reflexivity.
Qed.
(** What one pair does to the entries and to the name in force. *)
Definition entry_step (body : pair -> store * dict * rstring -> feed -> res (store * dict * rstring * feed)) : Prop :=
  forall p st d name it st' d' name' it', p_code p <> 102 -> p_code p <> 1001 -> body p (st, d, name) it = Ok (st', d', name', it') -> it' = it /\
    if p_code p =? 3 then p_value p = VStr name' /\ di_values d' = di_values d
    else if (p_code p =? 350) || (p_code p =? 360) then name' = name /\ exists h, as_handle p = Ok h /\ di_values d' = insert_entry name h (di_values d)
    else name' = name /\ di_values d' = di_values d.
Ltac plain_step H := match type of H with (let? _ := ?x in _) = _ => destruct x as [?z|] eqn:?E; cbn [bind] in H; [|discriminate H] end.
Lemma dict_entry_step : entry_step dict_body.
Proof.
  intros p st d name it st' d' name' it' A B H. unfold dict_body in H. destruct (p_code p =? 3) eqn:E3.
  - unfold assert_string in H. destruct (p_value p); cbn [bind] in H; try discriminate H. injection H as <- <- <- <-. repeat split; reflexivity.
  - destruct (p_code p =? 280) eqn:E280; [|destruct (p_code p =? 281) eqn:E281; [|destruct ((p_code p =? 350) || (p_code p =? 360)) eqn:EH]].
    + replace ((p_code p =? 350) || (p_code p =? 360)) with false by lia. plain_step H. injection H as <- <- <- <-. repeat split; reflexivity.
    + replace ((p_code p =? 350) || (p_code p =? 360)) with false by lia. plain_step H. injection H as <- <- <- <-. repeat split; reflexivity.
    + plain_step H. injection H as <- <- <- <-. split; [reflexivity|]. split; [reflexivity|]. eexists. split; reflexivity.
    + plain_step H. destruct z as [x y]. injection H as <- <- <- <-. split; [exact (common_rest _ _ _ _ _ A B E)|]. split; reflexivity.
Qed.
Lemma dictd_entry_step : entry_step dictd_body.
Proof.
  intros p st d name it st' d' name' it' A B H. unfold dictd_body in H. destruct (p_code p =? 3) eqn:E3.
  - unfold assert_string in H. destruct (p_value p); cbn [bind] in H; try discriminate H. injection H as <- <- <- <-. repeat split; reflexivity.
  - destruct (p_code p =? 281) eqn:E281; [|destruct (p_code p =? 340) eqn:E340; [|destruct ((p_code p =? 350) || (p_code p =? 360)) eqn:EH]].
    + replace ((p_code p =? 350) || (p_code p =? 360)) with false by lia. plain_step H. injection H as <- <- <- <-. repeat split; reflexivity.
    + replace ((p_code p =? 350) || (p_code p =? 360)) with false by lia. plain_step H. injection H as <- <- <- <-. repeat split; reflexivity.
    + plain_step H. injection H as <- <- <- <-. split; [reflexivity|]. split; [reflexivity|]. eexists. split; reflexivity.
    + plain_step H. destruct z as [x y]. injection H as <- <- <- <-. split; [exact (common_rest _ _ _ _ _ A B E)|]. split; reflexivity.
Qed.
Lemma loop_answers body nx rest k : entry_step body -> p_code nx = 0 -> forall ps fuel st d name st' d' name' r, plain ps ->
  next_loop body fuel (map Ok ps ++ Ok nx :: rest) (st, d, name) = Ok (st', d', name', r) -> r = Ok nx :: rest /\ answers k name ps (di_values d) (di_values d').
Proof.
  intros S Z. induction ps as [|p ps IH]; intros fuel st d name st' d' name' r P H; (destruct fuel as [|f]; cbn [next_loop] in H; [discriminate H|]); cbn [map app] in H.
  - rewrite Z in H. change (0 =? 0) with true in H. cbn iota in H. injection H as <- <- <- <-. split; reflexivity.
  - inversion P as [|x y (P0 & P1 & P2) P4]; subst x y. destruct (p_code p =? 0) eqn:E0; [lia|].
    destruct (body p (st, d, name) (map Ok ps ++ Ok nx :: rest)) as [[[[st1 d1] name1] it1]|] eqn:E; cbn [bind] in H; [|discriminate H].
    destruct (S _ _ _ _ _ _ _ _ _ P1 P2 E) as [-> Q]. destruct (IH _ _ _ _ _ _ _ _ P4 H) as [R1 R2]. split; [exact R1|]. unfold answers in *. cbn [given]. destruct (p_code p =? 3).
    + destruct Q as [V W]. rewrite V, <- W. exact R2.
    + destruct ((p_code p =? 350) || (p_code p =? 360)).
      * destruct Q as (-> & h & A & W). destruct (given k name ps) as [v|]; [exact R2|]. rewrite W, get_insert in R2. destruct (seqb k name); [|exact R2]. exists h. split; [exact R2|exact (handle_says _ _ A)].
      * destruct Q as [-> W]. rewrite <- W. exact R2.
Qed.
(** The other codes: the last pair with the code decides. *)
Definition last_step {A} (body : pair -> store * dict * rstring -> feed -> res (store * dict * rstring * feed)) (c : Z) (f : store -> dict -> A) (rel : value -> A -> Prop) : Prop :=
  forall p st d name it st' d' name' it', p_code p <> 102 -> p_code p <> 1001 -> body p (st, d, name) it = Ok (st', d', name', it') -> it' = it /\ if p_code p =? c then rel (p_value p) (f st' d') else f st' d' = f st d.
Lemma loop_last {A} body nx rest c (f : store -> dict -> A) rel a0 : last_step body c f rel -> p_code nx = 0 -> forall ps fuel st d name st' d' name' r o, plain ps -> last_said o a0 (f st d) rel ->
  next_loop body fuel (map Ok ps ++ Ok nx :: rest) (st, d, name) = Ok (st', d', name', r) -> last_said (fold_left (fun o p => if p_code p =? c then Some (p_value p) else o) ps o) a0 (f st' d') rel.
Proof.
  intros S Z. induction ps as [|p ps IH]; intros fuel st d name st' d' name' r o P O H; (destruct fuel as [|n]; cbn [next_loop] in H; [discriminate H|]); cbn [map app] in H; cbn [fold_left].
  - rewrite Z in H. change (0 =? 0) with true in H. cbn iota in H. injection H as <- <- <- <-. exact O.
  - inversion P as [|x y (P0 & P1 & P2) P4]; subst x y. destruct (p_code p =? 0) eqn:E0; [lia|].
    destruct (body p (st, d, name) (map Ok ps ++ Ok nx :: rest)) as [[[[st1 d1] name1] it1]|] eqn:E; cbn [bind] in H; [|discriminate H].
    destruct (S _ _ _ _ _ _ _ _ _ P1 P2 E) as [-> Q]. refine (IH _ _ _ _ _ _ _ _ _ P4 _ H). destruct (p_code p =? c); [exact Q|]. rewrite Q. exact O.
Qed.
Lemma dup_listed z : 0 <= z <= 5 -> dup_of z = z.
Proof. intros H. assert (z = 0 \/ z = 1 \/ z = 2 \/ z = 3 \/ z = 4 \/ z = 5) as C by lia. repeat destruct C as [->|C]; try reflexivity. rewrite C. reflexivity. Qed.
Lemma common_slot c s p st it st' it' : In (c, s) [(5, "common.handle"); (330, "common.__owner_handle")] -> common_apply p st it = Ok (st', it') -> if p_code p =? c then as_slot (p_value p) (st' s) else st' s = st s.
Proof.
  intros I H. unfold common_apply in H. destruct (step ocommon_arms p st [] it) as [[[x y] w]|] eqn:E; cbn [bind fst] in H; [|discriminate H]. injection H as <- _. unfold step, ocommon_arms in E. cbn [find_arm a_code a_guards a_actions forallb andb] in E.
  destruct (5 =? p_code p) eqn:E5; cbn [andb] in E.
  - cbn [acts act] in E. destruct (apply_r RHandle p) as [h|] eqn:R; cbn [bind fst snd] in E; [|discriminate E]. injection E as <- _ _. destruct I as [I|[I|[]]]; injection I as <- <-.
    + replace (p_code p =? 5) with true by lia. intros z U. unfold upd. rewrite String.eqb_refl. exact (reads_as_sound Hex RHandle _ _ _ eq_refl U R).
    + replace (p_code p =? 330) with false by lia. reflexivity.
  - destruct (102 =? p_code p) eqn:E102; cbn [andb] in E; [|destruct (330 =? p_code p) eqn:E330; cbn [andb] in E; [|destruct (1001 =? p_code p) eqn:E1001; cbn [andb] in E]].
    + assert (x s = st s) as K by (refine (acts_keeps _ _ _ _ _ _ _ _ _ _ E); destruct I as [I|[I|[]]]; injection I as <- <-; reflexivity). destruct I as [I|[I|[]]]; injection I as <- <-; [replace (p_code p =? 5) with false by lia|replace (p_code p =? 330) with false by lia]; exact K.
    + cbn [acts act] in E. destruct (apply_r RHandle p) as [h|] eqn:R; cbn [bind fst snd] in E; [|discriminate E]. injection E as <- _ _. destruct I as [I|[I|[]]]; injection I as <- <-.
      * replace (p_code p =? 5) with false by lia. reflexivity.
      * replace (p_code p =? 330) with true by lia. intros z U. unfold upd. rewrite String.eqb_refl. exact (reads_as_sound Hex RHandle _ _ _ eq_refl U R).
    + assert (x s = st s) as K by (refine (acts_keeps _ _ _ _ _ _ _ _ _ _ E); destruct I as [I|[I|[]]]; injection I as <- <-; reflexivity). destruct I as [I|[I|[]]]; injection I as <- <-; [replace (p_code p =? 5) with false by lia|replace (p_code p =? 330) with false by lia]; exact K.
    + injection E as <- _ _. destruct I as [I|[I|[]]]; injection I as <- <-; [replace (p_code p =? 5) with false by lia|replace (p_code p =? 330) with false by lia]; reflexivity.
Qed.
Lemma short_i16 v p z x : p_value p = v -> v = VShort z -> assert_i16 p = Ok x -> x = z.
Proof. intros A -> H. unfold assert_i16 in H. rewrite A in H. injection H as <-. reflexivity. Qed.
Ltac dict_cases H A B := match type of H with (if ?b then _ else _) = _ => destruct b eqn:?C end; [plain_step H; injection H as <- <- <- <-; split; [reflexivity|]|].
Ltac dict_common H A B := plain_step H; match goal with z : _ * _ |- _ => destruct z as [?x ?y] end; injection H as <- <- <- <-; match goal with E : common_apply _ _ _ = _ |- _ => split; [exact (common_rest _ _ _ _ _ A B E)|] end.
Ltac decide_code := match goal with |- if ?a =? ?c then _ else _ => first [replace (a =? c) with false by lia; reflexivity | replace (a =? c) with true by lia] end.
Lemma dict_hard : last_step dict_body 280 (fun _ d => di_hard d) as_flag.
Proof.
  intros p st d name it st' d' name' it' A B H. unfold dict_body in H. repeat dict_cases H A B; try decide_code; try reflexivity; [|dict_common H A B; first [decide_code|reflexivity]].
  intros n Hz. cbn [di_hard di_set_hard]. rewrite (short_i16 _ _ _ _ eq_refl Hz E). reflexivity.
Qed.
Lemma dict_dup : last_step dict_body 281 (fun _ d => di_dup d) as_choice.
Proof.
  intros p st d name it st' d' name' it' A B H. unfold dict_body in H. repeat dict_cases H A B; try decide_code; try reflexivity; [|dict_common H A B; first [decide_code|reflexivity]].
  intros n Hz L. cbn [di_dup di_set_dup]. rewrite (short_i16 _ _ _ _ eq_refl Hz E). exact (dup_listed n L).
Qed.
Lemma dict_slot c s : In (c, s) [(5, "common.handle"); (330, "common.__owner_handle")] -> last_step dict_body c (fun st _ => st s) as_slot.
Proof.
  intros I p st d name it st' d' name' it' A B H. unfold dict_body in H. assert (c = 5 \/ c = 330) as Hc by (destruct I as [I|[I|[]]]; injection I as <- <-; tauto). repeat dict_cases H A B; try decide_code; try reflexivity. dict_common H A B. exact (common_slot _ _ _ _ _ _ _ I E).
Qed.
Lemma dictd_default : last_step dictd_body 340 (fun _ d => di_default d) as_hex.
Proof.
  intros p st d name it st' d' name' it' A B H. unfold dictd_body in H. repeat dict_cases H A B; try decide_code; try reflexivity; [|dict_common H A B; first [decide_code|reflexivity]].
  exact (handle_says _ _ E).
Qed.
Lemma dictd_dup : last_step dictd_body 281 (fun _ d => di_dup d) as_choice.
Proof.
  intros p st d name it st' d' name' it' A B H. unfold dictd_body in H. repeat dict_cases H A B; try decide_code; try reflexivity; [|dict_common H A B; first [decide_code|reflexivity]].
  intros n Hz L. cbn [di_dup di_set_dup]. rewrite (short_i16 _ _ _ _ eq_refl Hz E). exact (dup_listed n L).
Qed.
Lemma dictd_slot c s : In (c, s) [(5, "common.handle"); (330, "common.__owner_handle")] -> last_step dictd_body c (fun st _ => st s) as_slot.
Proof.
  intros I p st d name it st' d' name' it' A B H. unfold dictd_body in H. assert (c = 5 \/ c = 330) as Hc by (destruct I as [I|[I|[]]]; injection I as <- <-; tauto). repeat dict_cases H A B; try decide_code; try reflexivity. dict_common H A B. exact (common_slot _ _ _ _ _ _ _ I E).
Qed.

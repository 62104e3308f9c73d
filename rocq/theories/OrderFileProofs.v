(** Entities that read the same give the same drawing. *)
From Verif Require Import Base TextModel TextProofs CodePairModel SpecModel SpecSpec SpecCheck SpecProofs DocSpec DrawingModel FileModel EntityData TableData ObjectData DocProofs SaveModel LoadProofs OrderSpec OrderProofs LoadSpec SectionsSpec SectionsProofs.
Open Scope string_scope.
Open Scope list_scope.
Open Scope Z_scope.
Set Default Goal Selector "!".

Definition same_raw (x y : raw) : Prop := fst x = fst y /\ forall s, snd x s = snd y s.
Definition item_feed (a : list pair) : feed := map Ok a.
(** The pairs are one entity, wherever they stand. *)
Definition gives (a : list pair) (x : raw) : Prop := forall nx rest, p_code nx = 0 -> read_entity (map Ok a ++ Ok nx :: rest) = Ok (Some x, Ok nx :: rest).
Definition starts_zero (a : list pair) : Prop := exists z r, a = z :: r /\ p_code z = 0.
Definition alike (a b : list pair) : Prop := starts_zero a /\ starts_zero b /\ exists x y, gives a x /\ gives b y /\ same_raw x y.

Lemma to_fields_same d own st st' : (forall s : string, st s = st' s) -> to_fields d own st = to_fields d own st'.
Proof. intros H. unfold to_fields. apply map_ext. intros [n v]. rewrite H. reflexivity. Qed.
Lemma entity_of_same x y l m : same_raw x y -> entity_of x l m = entity_of y l m.
Proof.
  intros [E H]. unfold entity_of, kind_of. rewrite <- E. cbv zeta. rewrite (to_fields_same _ _ _ _ H), !H. f_equal. unfold especific_of. rewrite !H.
  destruct (assoc_slot _ dim_slots) as [d|]; [rewrite H|destruct (assoc_slot _ text_slots) as [t|]; [rewrite H|]]; reflexivity.
Qed.
Lemma child_of_same x y m : same_raw x y -> child_of x m = child_of y m.
Proof. intros [E H]. unfold child_of, kind_of. rewrite <- E, (to_fields_same _ _ _ _ H). reflexivity. Qed.
Lemma pack_same x y : same_raw x y -> pack_mtext (snd x) = pack_mtext (snd y).
Proof. intros [_ H]. unfold pack_mtext. f_equal. apply map_ext. exact H. Qed.
Lemma kind_same n x y : same_raw x y -> is_kind n x = is_kind n y.
Proof. intros [E _]. unfold is_kind, kind_of. rewrite E. reflexivity. Qed.

Lemma pairwise_length {A B} (R : A -> B -> Prop) l l' : Forall2 R l l' -> length l = length l'.
Proof. induction 1; cbn [length]; congruence. Qed.

Section Lockstep.
  Variable t : feed.
  Definition tail_here : feed := Ok (item "ENDSEC") :: t.
  Definition feed_here (l : list (list pair)) : feed := flat_map item_feed l ++ tail_here.
  Definition opt_same (o o' : option raw) : Prop := match o, o' with Some x, Some y => same_raw x y | None, None => True | _, _ => False end.
  Definition pending (o : option raw) : nat := match o with Some _ => 1 | None => 0 end.
  Definition lock (n : nat) (s s' : ents) : Prop := exists l l', Forall2 alike l l' /\ snd s = feed_here l /\ snd s' = feed_here l' /\ opt_same (fst s) (fst s') /\ n = (pending (fst s) + length l)%nat.
  Lemma here_next l l' : Forall2 alike l l' -> exists nx r nx' r', feed_here l = Ok nx :: r /\ p_code nx = 0 /\ feed_here l' = Ok nx' :: r' /\ p_code nx' = 0.
  Proof.
    unfold feed_here, tail_here. destruct 1 as [|a b l l' ((z & r & -> & Z) & (z' & r' & -> & Z') & _) _]; cbn [flat_map app].
    - exists (item "ENDSEC"), t, (item "ENDSEC"), t. repeat split.
    - eexists. eexists. eexists. eexists. split; [reflexivity|]. split; [exact Z|]. split; [reflexivity|exact Z'].
  Qed.
  Lemma end_next : entity_next tail_here = Ok (None, tail_here).
  Proof. unfold entity_next, swallow, read_entity, tail_here. cbn [length read_entity_fuel]. reflexivity. Qed.
  Lemma lock_pnext n s s' : lock n s s' -> exists o o' s1 s1', pnext s = Ok (o, s1) /\ pnext s' = Ok (o', s1') /\ opt_same o o' /\ fst s1 = None /\ fst s1' = None /\
    match o with Some _ => exists m, n = S m /\ lock m s1 s1' | None => n = O /\ snd s1 = tail_here /\ snd s1' = tail_here end.
  Proof.
    intros (l & l' & F & E & E' & O & N). destruct s as [o i], s' as [o' i']. cbn [fst snd] in *. subst i i'. unfold pnext. cbn [fst snd]. destruct o as [x|], o' as [y|]; try contradiction O; cbn [pending] in N.
    - exists (Some x), (Some y). eexists. eexists. split; [reflexivity|]. split; [reflexivity|]. split; [exact O|]. split; [reflexivity|]. split; [reflexivity|]. exists (length l). split; [exact N|]. exists l, l'. cbn [fst snd opt_same pending]. split; [exact F|]. split; [reflexivity|]. split; [reflexivity|]. split; [exact Logic.I|reflexivity].
    - inversion F as [|a b l1 l1' (_ & _ & x & y & Gx & Gy & R) F' E1 E2]; subst.
      + unfold feed_here. cbn [flat_map app]. rewrite end_next. cbn [bind]. exists None, None. eexists. eexists. split; [reflexivity|]. split; [reflexivity|]. split; [exact Logic.I|]. split; [reflexivity|]. split; [reflexivity|]. split; [reflexivity|]. split; reflexivity.
      + destruct (here_next _ _ F') as (nx & r & nx' & r' & H1 & Z1 & H2 & Z2). unfold feed_here in *. cbn [flat_map]. rewrite <- !app_assoc, H1, H2. unfold entity_next, swallow, item_feed. rewrite (Gx nx r Z1), (Gy nx' r' Z2). cbn [bind].
        exists (Some x), (Some y). eexists. eexists. split; [reflexivity|]. split; [reflexivity|]. split; [exact R|]. split; [reflexivity|]. split; [reflexivity|]. exists (length l1). split; [reflexivity|]. exists l1, l1'. cbn [fst snd]. unfold feed_here. split; [exact F'|]. split; [symmetry; exact H1|]. split; [symmetry; exact H2|]. split; [exact Logic.I|reflexivity].
  Qed.
  Lemma lock_put n s s' x y : same_raw x y -> fst s = None -> fst s' = None -> lock n s s' -> lock (S n) (Some x, snd s) (Some y, snd s').
  Proof. intros R E E' (l & l' & F & H & H' & _ & N). rewrite E in N. exists l, l'. cbn [fst snd pending opt_same]. cbn [pending] in N. split; [exact F|]. split; [exact H|]. split; [exact H'|]. split; [exact R|lia]. Qed.
  Lemma lock_done s s' : fst s = None -> fst s' = None -> snd s = tail_here -> snd s' = tail_here -> lock 0 s s'.
  Proof. intros E E' H H'. exists [], []. rewrite E, E'. split; [constructor|]. split; [exact H|]. split; [exact H'|]. split; [exact Logic.I|reflexivity]. Qed.
  Lemma lock_seqend n s s' : lock n s s' -> exists s1 s1' m, swallow_seqend s = Ok s1 /\ swallow_seqend s' = Ok s1' /\ lock m s1 s1' /\ (m <= n)%nat.
  Proof.
    intros L. destruct (lock_pnext n s s' L) as (o & o' & s1 & s1' & P & P' & O & E & E' & K). unfold swallow_seqend. rewrite P, P'. cbn [bind]. destruct o as [x|], o' as [y|]; try contradiction O.
    - destruct K as (m & -> & K). rewrite <- (kind_same "Seqend" x y O). destruct (is_kind "Seqend" x).
      + exists s1, s1', m. repeat split; [exact K|lia].
      + eexists. eexists. exists (S m). split; [reflexivity|]. split; [reflexivity|]. split; [exact (lock_put m s1 s1' x y O E E' K)|lia].
    - destruct K as (-> & K1 & K2). exists s1, s1', 0%nat. repeat split; [exact (lock_done _ _ E E' K1 K2)|lia].
  Qed.
  Lemma lock_mtext n s s' : lock n s s' -> exists v s1 s1' m, take_mtext s = Ok (v, s1) /\ take_mtext s' = Ok (v, s1') /\ lock m s1 s1' /\ (m <= n)%nat.
  Proof.
    intros L. destruct (lock_pnext n s s' L) as (o & o' & s1 & s1' & P & P' & O & E & E' & K). unfold take_mtext. rewrite P, P'. cbn [bind]. destruct o as [x|], o' as [y|]; try contradiction O.
    - destruct K as (m & -> & K). rewrite <- (kind_same "MText" x y O). destruct (is_kind "MText" x).
      + rewrite <- (pack_same x y O). eexists. exists s1, s1', m. split; [reflexivity|]. split; [reflexivity|]. split; [exact K|lia].
      + exists None. eexists. eexists. exists (S m). split; [reflexivity|]. split; [reflexivity|]. split; [exact (lock_put m s1 s1' x y O E E' K)|lia].
    - destruct K as (-> & K1 & K2). exists None, s1, s1', 0%nat. repeat split; [exact (lock_done _ _ E E' K1 K2)|lia].
  Qed.
  Lemma lock_children k n : forall s s' f f', lock n s s' -> (n < f)%nat -> (n < f')%nat -> exists c s1 s1' m, take_children k f s = Ok (c, s1) /\ take_children k f' s' = Ok (c, s1') /\ lock m s1 s1' /\ (m <= n)%nat.
  Proof.
    induction n as [n IH] using (well_founded_induction lt_wf). intros s s' f f' L F F'. destruct f as [|f]; [lia|]. destruct f' as [|f']; [lia|]. cbn [take_children].
    destruct (lock_pnext n s s' L) as (o & o' & s1 & s1' & P & P' & O & E & E' & K). rewrite P, P'. cbn [bind]. destruct o as [x|], o' as [y|]; try contradiction O.
    - destruct K as (m & -> & K). rewrite <- (kind_same k x y O). destruct (is_kind k x).
      + destruct (IH m ltac:(lia) s1 s1' f f' K ltac:(lia) ltac:(lia)) as (c & s2 & s2' & m2 & C & C' & L2 & M). rewrite C, C'. cbn [bind]. rewrite <- (child_of_same x y _ O). eexists. exists s2, s2', m2. split; [reflexivity|]. split; [reflexivity|]. split; [exact L2|lia].
      + exists []. eexists. eexists. exists (S m). split; [reflexivity|]. split; [reflexivity|]. split; [exact (lock_put m s1 s1' x y O E E' K)|lia].
    - destruct K as (-> & K1 & K2). exists [], s1, s1', 0%nat. repeat split; [exact (lock_done _ _ E E' K1 K2)|lia].
  Qed.
  Lemma items_count l l' : Forall2 alike l l' -> (length l <= length (flat_map item_feed l))%nat /\ (length l' <= length (flat_map item_feed l'))%nat.
  Proof.
    induction 1 as [|a b l l' ((z & r & -> & _) & (z' & r' & -> & _) & _) _ [IH IH']]; [split; reflexivity|]. cbn [flat_map length]. unfold item_feed at 1 3. rewrite !app_length, !map_length. cbn [length]. lia.
  Qed.
  Lemma lock_fuel n s s' : lock n s s' -> (n < ents_fuel s)%nat /\ (n < ents_fuel s')%nat.
  Proof.
    intros (l & l' & F & E & E' & O & ->). destruct (items_count l l' F) as [C C']. pose proof (pairwise_length _ _ _ F) as Q. unfold ents_fuel, feed_here in *. rewrite E, E', !app_length. destruct (fst s); cbn [pending]; lia.
  Qed.
  Lemma lock_collect n : forall s s' f f', lock n s s' -> (n < f)%nat -> (n < f')%nat -> exists l, collect_fuel f s = Ok (l, tail_here) /\ collect_fuel f' s' = Ok (l, tail_here).
  Proof.
    induction n as [n IH] using (well_founded_induction lt_wf). intros s s' f f' L F F'. destruct f as [|f]; [lia|]. destruct f' as [|f']; [lia|]. cbn [collect_fuel].
    destruct (lock_pnext n s s' L) as (o & o' & s1 & s1' & P & P' & O & E & E' & K). rewrite P, P'. cbn [bind]. destruct o as [x|], o' as [y|]; try contradiction O.
    - destruct K as (m & -> & K).
      assert (G : forall (e : entity) q q' k, lock k q q' -> (k <= m)%nat -> exists l, (let? (l, r) := collect_fuel f q in Ok (e :: l, r)) = Ok (l, tail_here) /\ (let? (l, r) := collect_fuel f' q' in Ok (e :: l, r)) = Ok (l, tail_here)).
      { intros e q q' k Lk Hk. destruct (IH k ltac:(lia) q q' f f' Lk ltac:(lia) ltac:(lia)) as (l & H & H'). rewrite H, H'. cbn [bind]. exists (e :: l). split; reflexivity. }
      assert (KE : kind_of x = kind_of y) by (unfold kind_of; rewrite (proj1 O); reflexivity). rewrite <- KE. rewrite <- !(kind_same _ x y O). assert (HA : has_attributes x = has_attributes y) by (unfold has_attributes; rewrite (proj2 O); reflexivity). rewrite <- HA.
      destruct (lock_fuel _ _ _ K) as [F1 F1'].
      destruct (has_mtext (kind_of x)).
      { destruct (lock_mtext _ _ _ K) as (v & s2 & s2' & m2 & T & T' & L2 & M). rewrite T, T'. cbn [bind]. rewrite <- (entity_of_same x y _ _ O). exact (G _ _ _ _ L2 M). }
      destruct (is_kind "Insert" x && has_attributes x).
      { destruct (lock_children "Attribute" m s1 s1' _ _ K F1 F1') as (c & s2 & s2' & m2 & T & T' & L2 & M). rewrite T, T'. cbn [bind]. destruct (lock_seqend _ _ _ L2) as (s3 & s3' & m3 & Q & Q' & L3 & M3). rewrite Q, Q'. cbn [bind]. rewrite <- (entity_of_same x y _ _ O). apply (G _ _ _ _ L3). lia. }
      destruct (is_kind "Polyline" x).
      { destruct (lock_children "Vertex" m s1 s1' _ _ K F1 F1') as (c & s2 & s2' & m2 & T & T' & L2 & M). rewrite T, T'. cbn [bind]. destruct (lock_seqend _ _ _ L2) as (s3 & s3' & m3 & Q & Q' & L3 & M3). rewrite Q, Q'. cbn [bind]. rewrite <- (entity_of_same x y _ _ O). apply (G _ _ _ _ L3). lia. }
      cbn [bind]. rewrite <- (entity_of_same x y _ _ O). apply (G _ _ _ _ K). lia.
    - destruct K as (_ & K1 & K2). exists []. rewrite K1, K2. split; reflexivity.
  Qed.
  Lemma collect_alike l l' : Forall2 alike l l' -> exists es, collect (feed_here l) = Ok (es, tail_here) /\ collect (feed_here l') = Ok (es, tail_here).
  Proof.
    intros F. unfold collect. destruct (items_count l l' F) as [C C']. pose proof (pairwise_length _ _ _ F) as Q. apply (lock_collect (length l)).
    - exists l, l'. cbn [fst snd opt_same pending]. split; [exact F|]. split; [reflexivity|]. split; [reflexivity|]. split; [exact Logic.I|reflexivity].
    - unfold feed_here. rewrite app_length. lia.
    - unfold feed_here. rewrite app_length. lia.
  Qed.
End Lockstep.

Lemma body_feed l t : map (@Ok pair) (concat l) ++ Ok (item "ENDSEC") :: t = feed_here t l.
Proof. unfold feed_here, tail_here. f_equal. induction l as [|a l IH]; [reflexivity|]. cbn [concat flat_map]. rewrite map_app, IH. reflexivity. Qed.
Lemma section_alike env u d l l' t : Forall2 alike l l' ->
  read_section (fun it => it) env (str "ENTITIES") u d (map Ok (concat l) ++ Ok (item "ENDSEC") :: t) = read_section (fun it => it) env (str "ENTITIES") u d (map Ok (concat l') ++ Ok (item "ENDSEC") :: t).
Proof.
  intros F. rewrite !body_feed. unfold read_section. change (seqb (str "ENTITIES") (str "HEADER")) with false. change (seqb (str "ENTITIES") (str "CLASSES")) with false. change (seqb (str "ENTITIES") (str "TABLES")) with false.
  change (seqb (str "ENTITIES") (str "BLOCKS")) with false. change (seqb (str "ENTITIES") (str "ENTITIES")) with true. cbn iota. unfold read_entities. destruct (collect_alike t l l' F) as (es & -> & ->). reflexivity.
Qed.

(** * One entity *)
Definition own_raw (t : itype) (ps : list pair) : res (option raw) :=
  let? x := feeds (sp_arms (it_spec t)) ps (default_of (it_spec t)) (sp_regs (it_spec t)) in Ok (option_map (fun st => (t, st)) (after (it_spec t) x)).
Fixpoint own_dimension (l : list itype) (ps : list pair) : res (option raw) :=
  match l with
  | [] => let? _ := own_raw ent_rotated_dimension ps in Ok None
  | t :: l' => match own_raw t ps with Err e => Err e | Ok (Some x) => Ok (Some x) | Ok None => own_dimension l' ps end
  end.
Definition own_entity (s : rstring) (ps : list pair) : res (option raw) :=
  if seqb s (str "DIMENSION") then own_dimension dimensions ps else match from_type_string s with Some t => own_raw t ps | None => Ok None end.
Lemma all_marked : forallb (fun t => groups_marked (sp_arms (it_spec t))) (dimensions ++ map snd type_strings) = true.
Proof. vm_compute. reflexivity. Qed.
Lemma dimension_marked t : In t (ent_rotated_dimension :: dimensions) -> groups_marked (sp_arms (it_spec t)) = true.
Proof. intros I. pose proof all_marked as A. rewrite forallb_forall in A. apply A, in_app_iff. left. destruct I as [<-|I]; [left; reflexivity|exact I]. Qed.
Lemma typed_marked s t : from_type_string s = Some t -> groups_marked (sp_arms (it_spec t)) = true.
Proof.
  intros H. pose proof all_marked as A. rewrite forallb_forall in A. apply A, in_app_iff. right. unfold from_type_string in H. clear A. induction type_strings as [|[k v] l IH]; cbn [assoc_str] in H; [discriminate H|].
  destruct (seqb s k); [injection H as <-; left; reflexivity|right; exact (IH H)].
Qed.
Lemma item_own t ps nx rest : groups_marked (sp_arms (it_spec t)) = true -> p_code nx = 0 -> ungrouped ps ->
  (let? (o, r) := read_item (it_spec t) (map Ok ps ++ Ok nx :: rest) in Ok (option_map (fun st => (t, st)) o, r)) = (let? o := own_raw t ps in Ok (o, Ok nx :: rest)).
Proof. intros G Z U. rewrite (item_feeds _ _ _ _ G Z U). unfold own_raw. destruct (feeds _ _ _ _) as [x|e]; reflexivity. Qed.
Lemma dimension_own ps nx rest : p_code nx = 0 -> ungrouped ps -> forall l, incl l dimensions -> read_dimension l (map Ok ps ++ Ok nx :: rest) = (let? o := own_dimension l ps in Ok (o, Ok nx :: rest)).
Proof.
  intros Z U. induction l as [|t l IH]; intros I; cbn [read_dimension own_dimension].
  - pose proof (item_own ent_rotated_dimension ps nx rest (dimension_marked _ (or_introl eq_refl)) Z U) as E. destruct (read_item _ _) as [[o r]|e]; cbn [bind] in *; destruct (own_raw _ _) as [o'|e']; cbn [bind] in *; try discriminate E; [injection E as _ ->; reflexivity|injection E as ->; reflexivity].
  - pose proof (item_own t ps nx rest (dimension_marked _ (or_intror (I t (or_introl eq_refl)))) Z U) as E. specialize (IH (fun x Hx => I x (or_intror Hx))).
    destruct (read_item _ _) as [[o r]|e]; cbn [bind] in *; destruct (own_raw t ps) as [o'|e']; cbn [bind] in *; try discriminate E; [|injection E as ->; reflexivity]. injection E as <- ->. destruct o as [st|]; cbn [option_map bind]; [reflexivity|exact IH].
Qed.
Lemma entity_own s ps nx rest x : p_code nx = 0 -> ungrouped ps -> seqb s (str "ENDSEC") = false -> seqb s (str "ENDBLK") = false -> own_entity s ps = Ok (Some x) ->
  read_entity (map Ok (mk_pair 0 (VStr s) :: ps) ++ Ok nx :: rest) = Ok (Some x, Ok nx :: rest).
Proof.
  intros Z U N1 N2 H. unfold read_entity. cbn [map app length read_entity_fuel p_code]. change (0 =? 0) with true. cbn iota. unfold assert_string. cbn [p_value bind]. rewrite N1, N2. cbn [orb]. unfold own_entity in H. destruct (seqb s (str "DIMENSION")).
  - rewrite (dimension_own ps nx rest Z U dimensions (incl_refl _)), H. reflexivity.
  - destruct (from_type_string s) as [t|] eqn:F; [|discriminate H]. pose proof (item_own t ps nx rest (typed_marked _ _ F) Z U) as E. rewrite H in E. cbn [bind] in E.
    destruct (read_item _ _) as [[o r]|e]; cbn [bind] in *; [|discriminate E]. injection E as E ->. destruct o as [st|]; [|discriminate E]. injection E as <-. reflexivity.
Qed.
Lemma fuel_end f : read_entity_fuel f [Ok (item "ENDSEC")] = Err OutOfFuel \/ read_entity_fuel f [Ok (item "ENDSEC")] = Ok (None, [Ok (item "ENDSEC")]).
Proof. destruct f; [left|right]; reflexivity. Qed.
Lemma skip_plain ps nx rest : p_code nx = 0 -> ungrouped ps -> skip_item (map Ok ps ++ Ok nx :: rest) = Ok (Ok nx :: rest).
Proof.
  intros Z U. induction U as [|p ps (N & _) U IH]; cbn [map app skip_item].
  - rewrite Z. reflexivity.
  - destruct (p_code p =? 0) eqn:E; [lia|exact IH].
Qed.
Lemma own_entity_of s ps x : ungrouped ps -> read_entity (map Ok (mk_pair 0 (VStr s) :: ps) ++ [Ok (item "ENDSEC")]) = Ok (Some x, [Ok (item "ENDSEC")]) ->
  seqb s (str "ENDSEC") = false /\ seqb s (str "ENDBLK") = false /\ own_entity s ps = Ok (Some x).
Proof.
  intros U H. unfold read_entity in H. set (f := length _) in H. clearbody f. cbn [map app read_entity_fuel p_code] in H. change (0 =? 0) with true in H. cbn iota in H. unfold assert_string in H. cbn [p_value bind] in H.
  destruct (seqb s (str "ENDSEC")); cbn [orb] in H; [discriminate H|]. destruct (seqb s (str "ENDBLK")); [discriminate H|]. split; [reflexivity|]. split; [reflexivity|]. unfold own_entity.
  destruct (seqb s (str "DIMENSION")).
  - rewrite (dimension_own ps (item "ENDSEC") [] eq_refl U dimensions (incl_refl _)) in H. destruct (own_dimension dimensions ps) as [[y|]|e]; cbn [bind] in H; [injection H as <-; reflexivity| |discriminate H]. destruct (fuel_end f) as [E|E]; rewrite E in H; discriminate H.
  - destruct (from_type_string s) as [t|] eqn:F.
    + pose proof (item_own t ps (item "ENDSEC") [] (typed_marked _ _ F) eq_refl U) as E. destruct (read_item _ _) as [[o r]|e]; cbn [bind] in *; [|discriminate H].
      destruct (own_raw t ps) as [o'|e']; cbn [bind] in E; [|discriminate E]. injection E as <- ->. destruct o as [st|]; [injection H as <-; reflexivity|]. destruct (fuel_end f) as [E|E]; rewrite E in H; discriminate H.
    + rewrite (skip_plain ps (item "ENDSEC") [] eq_refl U) in H. cbn [bind] in H. destruct (fuel_end f) as [E|E]; rewrite E in H; discriminate H.
Qed.
Lemma entity_gives s ps x : ungrouped ps -> read_entity (map Ok (mk_pair 0 (VStr s) :: ps) ++ [Ok (item "ENDSEC")]) = Ok (Some x, [Ok (item "ENDSEC")]) -> gives (mk_pair 0 (VStr s) :: ps) x.
Proof. intros U H nx rest Z. destruct (own_entity_of s ps x U H) as (N1 & N2 & E). exact (entity_own s ps nx rest x Z U N1 N2 E). Qed.

(** * Files *)
Local Notation idle := (fun it : feed => it).
Definition loads_alone env (h : list sect) (s : sect) : Prop := named "HEADER" s = false /\ closed s /\ exists a, load idle env (map Ok (file_of_sections (h ++ [s]))) = Ok a.
Lemma sections_chain env h l d0 u : chain env h false (start env) d0 u -> Forall (loads_alone env h) l -> forall d, version_in d = version_in d0 -> exists d', chain env l u d d' u /\ version_in d' = version_in d0.
Proof.
  intros C0 Hl. induction Hl as [|s l (N & C & a & L) _ IH]; intros d V; [exists d; split; [apply chain_nil|exact V]|].
  destruct (load_last env h s u d0 a C0 C L) as (u' & U & T). destruct (section_effect env (fst s) u d0 _ a u' _ N (T [Ok (item "EOF")] ltac:(discriminate))) as (f & F1 & F2 & -> & F3).
  destruct (IH (apply f d)) as (d' & C' & V'); [rewrite (header_version _ _ (proj1 (apply_rest f d))); exact V|]. exists d'. split; [|exact V'].
  apply (chain_cons _ _ _ _ _ (apply f d) u _ _); [|intros H; exact H|exact C']. intros t Nt. exact (section_exact env s u d (apply f d, u) _ [Ok (item "EOF")] C (F3 d V) eq_refl t Nt).
Qed.
Lemma entities_take env u d l l' : Forall2 alike l l' -> exists es, takes env (str "ENTITIES", concat l) u d (apply (FEntities es) d) u /\ takes env (str "ENTITIES", concat l') u d (apply (FEntities es) d) u.
Proof.
  intros F. assert (A : forall t, exists es, collect (feed_here t l) = Ok (es, tail_here t) /\ collect (feed_here t l') = Ok (es, tail_here t)) by (intros t; apply collect_alike, F).
  assert (R : forall m t, read_section idle env (str "ENTITIES") u d (map Ok (concat m) ++ Ok (item "ENDSEC") :: t) = (let? (d', r) := read_entities d (feed_here t m) in Ok (d', u, r))).
  { intros m t. rewrite body_feed. unfold read_section. change (seqb (str "ENTITIES") (str "HEADER")) with false. change (seqb (str "ENTITIES") (str "CLASSES")) with false. change (seqb (str "ENTITIES") (str "TABLES")) with false.
    change (seqb (str "ENTITIES") (str "BLOCKS")) with false. change (seqb (str "ENTITIES") (str "ENTITIES")) with true. reflexivity. }
  destruct (A [Ok (item "EOF")]) as (es & E1 & E2). exists es.
  assert (G : forall m, collect (feed_here [Ok (item "EOF")] m) = Ok (es, tail_here [Ok (item "EOF")]) -> forall t, t <> [] -> read_section idle env (str "ENTITIES") u d (map Ok (concat m) ++ Ok (item "ENDSEC") :: t) = Ok (apply (FEntities es) d, u, Ok (item "ENDSEC") :: t)).
  { intros m H t Nt. pose proof (section_idle env (str "ENTITIES") u d (map Ok (concat m) ++ [Ok (item "ENDSEC")]) [Ok (item "EOF")] t) as S. rewrite <- !app_assoc in S. cbn [app] in S. rewrite (R m [Ok (item "EOF")]) in S. unfold read_entities in S at 1. rewrite H in S. cbn [bind] in S.
    destruct S as [(y & w & _ & S1 & S2)|[(e & S & _)|[_ T]]].
    - destruct t; [contradiction (Nt eq_refl)|cbn [length]; lia].
    - unfold tail_here in S1. injection S1 as <- S1. assert (W : [@Ok pair (item "ENDSEC")] = w) by (apply (app_inv_tail [Ok (item "EOF")]); exact S1). subst w. exact S2.
    - discriminate S.
    - unfold tail_here in T. apply tail_length in T. cbn [length] in T. lia. }
  split; intros t Nt; cbn [fst snd]; apply G; assumption.
Qed.
Theorem files_alike env h before behind l l' d0 : header_part h -> load idle env (map Ok (file_of_sections h)) = Ok d0 -> Forall (loads_alone env h) (before ++ behind) -> Forall2 alike l l' ->
  exists d, load idle env (map Ok (file_of_sections (h ++ before ++ (str "ENTITIES", concat l) :: behind))) = Ok d /\ load idle env (map Ok (file_of_sections (h ++ before ++ (str "ENTITIES", concat l') :: behind))) = Ok d.
Proof.
  intros Hh H0 Hs F. destruct (header_start env h d0 Hh H0) as (u & x0 & C0 & _). apply Forall_app in Hs as [Hb Ha]. destruct (sections_chain env h before d0 u C0 Hb d0 eq_refl) as (d1 & C1 & V1).
  destruct (entities_take env u d1 l l' F) as (es & T & T'). destruct (sections_chain env h behind d0 u C0 Ha (apply (FEntities es) d1)) as (d2 & C2 & _); [rewrite (header_version _ _ (proj1 (apply_rest (FEntities es) d1))); exact V1|].
  exists d2. split; apply (chain_load env _ _ u); apply (chain_app _ _ _ _ _ _ _ _ _ C0); apply (chain_app _ _ _ _ _ _ _ _ _ C1); [apply (chain_cons _ _ _ _ _ _ _ _ _ T)|apply (chain_cons _ _ _ _ _ _ _ _ _ T')]; try exact C2; intros H; exact H.
Qed.

(** * Reordered and padded entities are alike *)
Definition pairs_of (a : string * list pair) : list pair := item (fst a) :: snd a.
Definition readable (a : string * list pair) : Prop := exists x, read_entity (map Ok (pairs_of a) ++ [Ok (item "ENDSEC")]) = Ok (Some x, [Ok (item "ENDSEC")]).
Lemma alike_own ty ps qs : ungrouped ps -> ungrouped qs -> readable (ty, ps) -> (forall x, own_entity (str ty) ps = Ok (Some x) -> exists y, own_entity (str ty) qs = Ok (Some y) /\ same_raw x y) -> alike (pairs_of (ty, ps)) (pairs_of (ty, qs)).
Proof.
  intros U V (x & R) H. destruct (own_entity_of _ _ _ U R) as (N1 & N2 & E). destruct (H x E) as (y & E' & S). split; [eexists; eexists; split; reflexivity|]. split; [eexists; eexists; split; reflexivity|]. exists x, y.
  split; [intros nx rest Z; exact (entity_own _ _ nx rest x Z U N1 N2 E)|]. split; [|exact S]. intros nx rest Z. exact (entity_own _ _ nx rest y Z V N1 N2 E').
Qed.
Lemma str_inj a b : str a = str b -> a = b.
Proof.
  intros H. rewrite <- (string_of_list_ascii_of_string a), <- (string_of_list_ascii_of_string b). f_equal. unfold str in H. revert H. generalize (list_ascii_of_string a) as x, (list_ascii_of_string b) as y.
  induction x as [|c x IH]; intros [|d y] H; try discriminate H; [reflexivity|]. cbn [map] in H. injection H as H1 H2. f_equal; [|exact (IH y H2)]. rewrite <- (ascii_N_embedding c), <- (ascii_N_embedding d), H1. reflexivity.
Qed.
Lemma unordered_types : forallb (fun x => existsb (fun n => seqb (fst x) (str n)) ordered_entities || unordered (it_spec (snd x)) []) type_strings = true.
Proof. vm_compute. reflexivity. Qed.
Lemma type_unordered ty t : from_type_string (str ty) = Some t -> ~ In ty ordered_entities -> unordered (it_spec t) [] = true.
Proof.
  intros F N. pose proof unordered_types as A. rewrite forallb_forall in A. assert (I : In (str ty, t) type_strings).
  { unfold from_type_string in F. clear A. induction type_strings as [|[k v] l IH]; cbn [assoc_str] in F; [discriminate F|]. destruct (seqb (str ty) k) eqn:E; [injection F as <-; apply seqb_eq in E as <-; left; reflexivity|right; exact (IH F)]. }
  specialize (A _ I). cbn [fst snd] in A. apply orb_true_iff in A as [A|A]; [|exact A]. apply existsb_exists in A as (n & In1 & E). apply seqb_eq in E. apply str_inj in E. subst n. contradiction.
Qed.
Lemma same_own ty ps qs x : ~ In ty ordered_entities -> ungrouped ps -> same_per_code ps qs -> own_entity (str ty) ps = Ok (Some x) -> exists y, own_entity (str ty) qs = Ok (Some y) /\ same_raw x y.
Proof.
  intros N U S H. unfold own_entity in *. destruct (seqb (str ty) (str "DIMENSION")) eqn:D; [apply seqb_eq, str_inj in D; subst ty; contradiction N; right; right; left; reflexivity|].
  destruct (from_type_string (str ty)) as [t|] eqn:F; [|discriminate H]. pose proof (item_same (it_spec t) [] ps qs (item "ENDSEC") [] (type_unordered ty t F N) eq_refl U S) as A.
  pose proof (typed_marked _ _ F) as G. rewrite !item_feeds in A by (try assumption; try reflexivity; exact (same_ungrouped _ _ S U)). unfold own_raw in *. destruct (feeds _ ps _ _) as [a|]; cbn [bind] in *; [|discriminate H].
  destruct (feeds _ qs _ _) as [b|]; cbn [bind agree] in *; [|contradiction A]. destruct A as (st & st' & A1 & A2 & A3). injection A1 as A1. injection A2 as A2. rewrite A1 in H. rewrite A2. cbn [option_map] in *. injection H as <-. eexists. split; [reflexivity|]. split; [reflexivity|]. intros s. apply A3. intros [].
Qed.
(** Which codes the reader of an entity looks at. *)
Definition entity_uses (s : rstring) (c : Z) : bool :=
  if seqb s (str "DIMENSION") then existsb (fun t => uses (sp_arms (it_spec t)) c) dimensions else match from_type_string s with Some t => uses (sp_arms (it_spec t)) c | None => false end.
Lemma feeds_more arms (f : Z -> bool) ps : (forall c, uses arms c = true -> f c = true) -> forall st regs, feeds arms (filter (fun p => f (p_code p)) ps) st regs = feeds arms ps st regs.
Proof.
  intros H. induction ps as [|p ps IH]; intros st regs; [reflexivity|]. cbn [filter feeds]. destruct (f (p_code p)) eqn:U; cbn [feeds].
  - destruct (step arms p st regs []) as [[x it]|e]; cbn [bind]; [apply IH|reflexivity].
  - unfold step. rewrite (unused_arm arms (p_code p) regs); [cbn [bind fst snd]; apply IH|]. destruct (uses arms (p_code p)) eqn:E; [|reflexivity]. rewrite (H _ E) in U. discriminate U.
Qed.
Lemma raw_uses t (f : Z -> bool) ps qs : (forall c, uses (sp_arms (it_spec t)) c = true -> f c = true) -> filter (fun p => f (p_code p)) ps = filter (fun p => f (p_code p)) qs -> own_raw t ps = own_raw t qs.
Proof. intros H E. unfold own_raw. rewrite <- (feeds_more _ f ps H), E, (feeds_more _ f qs H). reflexivity. Qed.
Lemma unused_own s ps qs : filter (fun p => entity_uses s (p_code p)) ps = filter (fun p => entity_uses s (p_code p)) qs -> own_entity s ps = own_entity s qs.
Proof.
  unfold own_entity, entity_uses. destruct (seqb s (str "DIMENSION")).
  - intros E. assert (G : forall t, In t dimensions -> own_raw t ps = own_raw t qs).
    { intros t I. apply (raw_uses t (fun c => existsb (fun t => uses (sp_arms (it_spec t)) c) dimensions)); [|exact E]. intros c U. apply existsb_exists. exists t. split; assumption. }
    clear E. assert (K : forall l, incl l dimensions -> own_dimension l ps = own_dimension l qs); [|apply K, incl_refl].
    induction l as [|t l IH]; intros I; cbn [own_dimension]; [rewrite (G ent_rotated_dimension (or_introl eq_refl)); reflexivity|]. rewrite (G t (I t (or_introl eq_refl))), (IH (fun x Hx => I x (or_intror Hx))). reflexivity.
  - destruct (from_type_string s) as [t|]; [|reflexivity]. intros E. apply (raw_uses t (uses (sp_arms (it_spec t)))); [|exact E]. intros c U. exact U.
Qed.

(** * The codes listed *)
Lemma entity_codes_all : forallb (fun x => forallb (fun a => existsb (fun y => if seqb (fst x) (str (fst y)) then has_code entity_common entity_codes (fst y) (a_code a) else false) entity_codes) (sp_arms (it_spec (snd x)))) type_strings &&
  forallb (fun t => forallb (fun a => has_code entity_common entity_codes "DIMENSION" (a_code a)) (sp_arms (it_spec t))) dimensions = true.
Proof. vm_compute. reflexivity. Qed.
Lemma type_in s t : from_type_string s = Some t -> In (s, t) type_strings.
Proof. unfold from_type_string. induction type_strings as [|[k v] l IH]; cbn [assoc_str]; intros F; [discriminate F|]. destruct (seqb s k) eqn:E; [injection F as <-; apply seqb_eq in E as <-; left; reflexivity|right; exact (IH F)]. Qed.
Lemma entity_known ty c : entity_uses (str ty) c = true -> has_code entity_common entity_codes ty c = true.
Proof.
  pose proof entity_codes_all as A. apply andb_true_iff in A as [A B]. unfold entity_uses. destruct (seqb (str ty) (str "DIMENSION")) eqn:D.
  - apply seqb_eq, str_inj in D. subst ty. intros H. apply existsb_exists in H as (t & I & H). rewrite forallb_forall in B. specialize (B t I). rewrite forallb_forall in B. apply existsb_exists in H as (a & Ia & Ea). specialize (B a Ia). assert (E : a_code a = c) by lia. rewrite E in B. exact B.
  - destruct (from_type_string (str ty)) as [t|] eqn:F; [|discriminate]. intros H. apply existsb_exists in H as (a & Ia & Ea). assert (E : a_code a = c) by lia. rewrite forallb_forall in A. specialize (A _ (type_in _ _ F)). cbn [fst snd] in A. rewrite forallb_forall in A. specialize (A a Ia).
    apply existsb_exists in A as (y & _ & A2). destruct (seqb (str ty) (str (fst y))) eqn:A1; [|discriminate A2]. apply seqb_eq, str_inj in A1. rewrite <- A1, E in A2. exact A2.
Qed.
Lemma filter_more {A} (f g : A -> bool) l m : (forall x, f x = true -> g x = true) -> filter g l = filter g m -> filter f l = filter f m.
Proof.
  intros H E. assert (K : forall k, filter f k = filter f (filter g k)).
  { induction k as [|x k IH]; [reflexivity|]. cbn [filter]. destruct (g x) eqn:G; cbn [filter]; [rewrite IH; reflexivity|]. destruct (f x) eqn:Ff; [rewrite (H _ Ff) in G; discriminate G|exact IH]. }
  rewrite (K l), (K m), E. reflexivity.
Qed.
Lemma known_own ty ps qs : same_known entity_common entity_codes ty ps qs -> own_entity (str ty) ps = own_entity (str ty) qs.
Proof. intros H. apply unused_own. apply (filter_more _ (fun p => has_code entity_common entity_codes ty (p_code p))); [intros p; apply entity_known|exact H]. Qed.

(** * Objects and table items *)
Lemma custom_other ty : seqb ty (str "DICTIONARY") = false -> seqb ty (str "ACDBDICTIONARYWDFLT") = false -> seqb ty (str "DATATABLE") = false -> seqb ty (str "XRECORD") = false -> seqb ty (str "SECTIONSETTINGS") = false -> seqb ty (str "TABLESTYLE") = false ->
  seqb ty (str "SPATIAL_FILTER") = false -> seqb ty (str "SUNSTUDY") = false -> assoc_str ty object_readers = assoc_str ty (map (fun t => (sp_type (it_spec t), fun it => plain_of t (read_item (it_spec t) it))) objects).
Proof. intros H1 H2 H3 H4 H5 H6 H7 H8. unfold object_readers, custom_readers. cbn [app assoc_str]. rewrite H1, H2, H3, H4, H5, H6, H7, H8. reflexivity. Qed.
Lemma objects_listed : forallb (fun t => existsb (fun y => if seqb (sp_type (it_spec t)) (str (fst y)) then forallb (fun a => has_code object_common object_codes (fst y) (a_code a)) (sp_arms (it_spec t)) else false) object_codes &&
  groups_marked (sp_arms (it_spec t)) && (existsb (fun n => seqb (sp_type (it_spec t)) (str n)) ordered_objects || unordered (it_spec t) [])) objects &&
  forallb (fun x => existsb (fun t => seqb (sp_type (it_spec t)) (str (fst x))) objects && negb (existsb (fun r => seqb (str (fst x)) (fst r)) custom_readers)) object_codes = true.
Proof. vm_compute. reflexivity. Qed.
Lemma assoc_map_in (l : list itype) s (f : itype -> feed -> res (object * feed)) : existsb (fun t => seqb (sp_type (it_spec t)) s) l = true -> exists t, In t l /\ sp_type (it_spec t) = s /\ assoc_str s (map (fun t => (sp_type (it_spec t), f t)) l) = Some (f t).
Proof.
  induction l as [|t l IH]; intros H; [discriminate H|]. cbn [existsb map assoc_str] in *. destruct (seqb s (sp_type (it_spec t))) eqn:E; [exists t; apply seqb_eq in E; split; [left; reflexivity|]; split; [symmetry; exact E|reflexivity]|].
  apply orb_true_iff in H as [H|H]; [apply seqb_eq in H; rewrite <- H in E; assert (X : seqb (sp_type (it_spec t)) (sp_type (it_spec t)) = true) by (apply seqb_eq; reflexivity); congruence|]. destruct (IH H) as (t' & I & E' & A). exists t'. split; [right; exact I|]. split; assumption.
Qed.
Lemma object_reader ty cs : In (ty, cs) object_codes -> exists t, In t objects /\ sp_type (it_spec t) = str ty /\ assoc_str (str ty) object_readers = Some (fun it => plain_of t (read_item (it_spec t) it)) /\ seqb (str ty) (str "ENDSEC") || seqb (str ty) (str "ENDBLK") = false.
Proof.
  intros I. pose proof objects_listed as A. apply andb_true_iff in A as [_ A]. rewrite forallb_forall in A. specialize (A _ I). cbn [fst] in A. apply andb_true_iff in A as [A B]. destruct (assoc_map_in objects (str ty) (fun t it => plain_of t (read_item (it_spec t) it)) A) as (t & It & E & H).
  exists t. split; [exact It|]. split; [exact E|]. split.
  - rewrite <- H. apply negb_true_iff in B. unfold custom_readers in B. cbn [existsb fst] in B. repeat (apply orb_false_iff in B as [? B]). apply custom_other; assumption.
  - assert (K : forallb (fun t => negb (seqb (sp_type (it_spec t)) (str "ENDSEC") || seqb (sp_type (it_spec t)) (str "ENDBLK"))) objects = true) by (vm_compute; reflexivity). rewrite forallb_forall in K. specialize (K t It). rewrite E in K. apply negb_true_iff in K. exact K.
Qed.
Lemma object_item ty cs t ps it : In (ty, cs) object_codes -> assoc_str (str ty) object_readers = Some (fun it => plain_of t (read_item (it_spec t) it)) -> seqb (str ty) (str "ENDSEC") || seqb (str ty) (str "ENDBLK") = false ->
  read_object (map Ok (pairs_of (ty, ps)) ++ it) = (let? (o, r) := plain_of t (read_item (it_spec t) (map Ok ps ++ it)) in Ok (Some o, r)).
Proof. intros _ A E. unfold read_object. cbn [pairs_of fst snd map app]. remember (length (Ok (item ty) :: map Ok ps ++ it)) as f. clear Heqf. cbn [read_object_fuel]. change (p_code (item ty) =? 0) with true. cbn [assert_string item p_value bind]. rewrite E, A. reflexivity. Qed.
Lemma object_of_same t st st' : (forall s, st s = st' s) -> object_of t st = object_of t st'.
Proof. intros H. unfold object_of, ospecific_of. rewrite (to_fields_same _ _ _ _ H), !H. reflexivity. Qed.
Lemma object_same ty cs ps qs nx rest : In (ty, cs) object_codes -> ~ In ty ordered_objects -> ungrouped ps -> same_per_code ps qs -> p_code nx = 0 ->
  agree eq (read_object (map Ok (pairs_of (ty, ps)) ++ Ok nx :: rest)) (read_object (map Ok (pairs_of (ty, qs)) ++ Ok nx :: rest)).
Proof.
  intros I N U S Z. destruct (object_reader ty cs I) as (t & It & Et & A & E). rewrite !(object_item ty cs t) by assumption. pose proof objects_listed as L. apply andb_true_iff in L as [L _]. rewrite forallb_forall in L. specialize (L t It). apply andb_true_iff in L as [_ L].
  apply orb_true_iff in L as [L|L]; [apply existsb_exists in L as (n & In1 & L); apply seqb_eq in L; rewrite Et in L; apply str_inj in L; subst n; contradiction|].
  pose proof (item_same (it_spec t) [] ps qs nx rest L Z U S) as H. unfold plain_of; destruct (read_item _ (map Ok ps ++ _)) as [x|], (read_item _ (map Ok qs ++ _)) as [y|]; cbn [agree bind] in *; try contradiction H; try exact Logic.I.
    destruct H as (st & st' & -> & -> & H). cbn [bind fst snd]. rewrite (object_of_same t st st'); [reflexivity|]. intros s. apply H. intros [].
Qed.
Lemma object_known ty cs ps qs nx rest : In (ty, cs) object_codes -> ungrouped ps -> ungrouped qs -> same_known object_common object_codes ty ps qs -> p_code nx = 0 ->
  read_object (map Ok (pairs_of (ty, ps)) ++ Ok nx :: rest) = read_object (map Ok (pairs_of (ty, qs)) ++ Ok nx :: rest).
Proof.
  intros I U V S Z. destruct (object_reader ty cs I) as (t & It & Et & A & E). rewrite !(object_item ty cs t) by assumption. pose proof objects_listed as L. apply andb_true_iff in L as [L _]. rewrite forallb_forall in L. specialize (L t It). apply andb_true_iff in L as [L _]. apply andb_true_iff in L as [L G].
  rewrite (item_unused (it_spec t) ps qs nx rest G Z U V); [reflexivity|]. apply (filter_more _ (fun p => has_code object_common object_codes ty (p_code p))); [|exact S]. intros p H. apply existsb_exists in L as (y & _ & L). destruct (seqb _ (str (fst y))) eqn:F; [|discriminate L]. apply seqb_eq in F. rewrite Et in F. apply str_inj in F. rewrite <- F in L.
  apply existsb_exists in H as (a & Ia & Ea). rewrite forallb_forall in L. specialize (L a Ia). assert (Ec : a_code a = p_code p) by lia. rewrite Ec in L. exact L.
Qed.
Lemma tables_listed : forallb (fun k => existsb (fun y => if seqb (table_type k) (str (fst y)) then unordered (it_spec (table_spec k)) (shared_fields (fst y)) && forallb (fun a => has_code table_common table_codes (fst y) (a_code a)) (sp_arms (it_spec (table_spec k))) else false) table_codes) all_tables = true.
Proof. vm_compute. reflexivity. Qed.
Lemma table_listed k ty : table_type k = str ty -> unordered (it_spec (table_spec k)) (shared_fields ty) = true /\ forall c, uses (sp_arms (it_spec (table_spec k))) c = true -> has_code table_common table_codes ty c = true.
Proof.
  intros E. pose proof tables_listed as A. rewrite forallb_forall in A. specialize (A k ltac:(destruct k; cbn; tauto)). apply existsb_exists in A as (y & _ & A). rewrite E in A. destruct (seqb (str ty) (str (fst y))) eqn:F; [|discriminate A]. apply seqb_eq, str_inj in F. rewrite <- F in A.
  apply andb_true_iff in A as [A B]. split; [exact A|]. intros c H. apply existsb_exists in H as (a & Ia & Ea). rewrite forallb_forall in B. specialize (B a Ia). assert (Ec : a_code a = c) by lia. rewrite Ec in B. exact B.
Qed.
Lemma table_same k ty ps qs nx rest : table_type k = str ty -> ungrouped ps -> same_per_code ps qs -> p_code nx = 0 ->
  agree (fun x y => exists st st', x = (Some st, Ok nx :: rest) /\ y = (Some st', Ok nx :: rest) /\ same_store (shared_fields ty) st st') (read_item (it_spec (table_spec k)) (map Ok ps ++ Ok nx :: rest)) (read_item (it_spec (table_spec k)) (map Ok qs ++ Ok nx :: rest)).
Proof. intros E U S Z. apply item_same; try assumption. apply (table_listed k ty E). Qed.
Lemma table_known k ty ps qs nx rest : table_type k = str ty -> ungrouped ps -> ungrouped qs -> same_known table_common table_codes ty ps qs -> p_code nx = 0 ->
  read_item (it_spec (table_spec k)) (map Ok ps ++ Ok nx :: rest) = read_item (it_spec (table_spec k)) (map Ok qs ++ Ok nx :: rest).
Proof.
  intros E U V S Z. destruct (table_listed k ty E) as [O H]. apply item_unused; try assumption.
  - unfold unordered in O. repeat (apply andb_true_iff in O as [O _]). exact O.
  - apply (filter_more _ (fun p => has_code table_common table_codes ty (p_code p))); [|exact S]. intros p. apply H.
Qed.

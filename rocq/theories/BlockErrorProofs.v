(** A malformed pair within an entity of a block. *)
From Verif Require Import Base CodePairModel CodePairProofs ReaderProofs ExtDataModel SpecModel SpecSpec EntityData SectionData DrawingModel FileModel LoadSpec LoadProofs SkipProofs ErrorProofs LocalProofs.
Open Scope string_scope.
Open Scope list_scope.
Open Scope Z_scope.
Set Default Goal Selector "!".
Local Notation item := LoadSpec.item.

(** * The pairs of the block itself *)
Definition field_codes (l : list pair) : Prop := Forall (fun p => p_code p <> 0 /\ p_code p < 102) l.
Notation arms := (sp_arms (it_spec block_head)).
Lemma field_step p st : p_code p <> 0 /\ p_code p < 102 -> exists m : res store, forall r, step arms p st [] r = bind m (fun st' => Ok (st', [], r)).
Proof.
  intros [N L]. unfold step. cbn [it_spec block_head sp_arms find_arm a_code a_guards a_actions forallb]. rewrite !andb_true_r.
  repeat match goal with |- context [if ?c =? p_code p then _ else _] => destruct (Z.eqb_spec c (p_code p)) as [E|_]; [try lia;
    match goal with |- context [ASet ?s ?r] => exists (let? v := apply_r r p in Ok (upd st s v)); intros it; cbn [acts act]; destruct (apply_r r p); reflexivity end|] end.
  exists (Ok st). reflexivity.
Qed.
(** What the fields do to a block. *)
Lemma run_fields : forall l, field_codes l -> forall st, exists m : res store, forall eof f r, (length l < f)%nat ->
  run arms eof f (map Ok l ++ r) st [] = bind m (fun st' => run arms eof (f - length l) r st' []).
Proof.
  induction l as [|p l IH]; intros F st.
  - exists (Ok st). intros eof f r _. cbn [map app length bind]. rewrite Nat.sub_0_r. reflexivity.
  - inversion F as [|? ? Hp Hl]; subst. destruct (field_step p st Hp) as [m1 E1]. destruct Hp as [Hp _]. destruct m1 as [st1|e].
    + destruct (IH Hl st1) as [m E]. exists m. intros eof f r L. destruct f as [|f]; [lia|]. cbn [map app run]. apply Z.eqb_neq in Hp. rewrite Hp, E1. cbn [bind fst snd length]. cbn [length] in L. apply E. lia.
    + exists (Err e). intros eof f r L. destruct f as [|f]; [lia|]. cbn [map app run]. apply Z.eqb_neq in Hp. rewrite Hp, E1. reflexivity.
Qed.
Lemma run_zero eof f p r st : p_code p = 0 -> (0 < f)%nat -> run arms eof f (Ok p :: r) st [] = Ok (st, [], Ok p :: r).
Proof. intros E L. destruct f as [|f]; [lia|]. cbn [run]. rewrite E. reflexivity. Qed.

(** * Fuel *)
Lemma collect_more : forall f f' s m, (f <= f')%nat -> collect_fuel f s = m -> m <> Err OutOfFuel -> collect_fuel f' s = m.
Proof.
  induction f as [|f IH]; intros f' s m L H N; [cbn [collect_fuel] in H; congruence|]. destruct f' as [|f']; [lia|]. cbn [collect_fuel] in *.
  destruct (pnext s) as [[o s1]|]; cbn [bind] in *; [|exact H]. destruct o as [e|]; [|exact H].
  match goal with |- bind ?m _ = _ => destruct m as [[y s2]|]; cbn [bind] in *; [|exact H] end.
  destruct (collect_fuel f s2) as [[l r]|e'] eqn:E; cbn [bind] in H.
  - rewrite (IH f' s2 _ ltac:(lia) E) by discriminate. exact H.
  - rewrite (IH f' s2 _ ltac:(lia) E) by (intros X; injection X as ->; congruence). exact H.
Qed.
Lemma collect_same f it x : reports it -> (length it < f)%nat -> collect_fuel f (None, it) = Ok x -> collect it = Ok x.
Proof.
  intros R L H. unfold collect. rewrite <- H. apply (collect_agree [Ok (item "ENDSEC")]); [exists (item "ENDSEC"), []; split; reflexivity|intros e [X|[]]; discriminate X|apply rel_same; exact R| |]; unfold weight; cbn [fst snd]; lia.
Qed.
Lemma block_more : forall f f' st es it x, (f <= f')%nat -> read_block_fuel f st es it = Ok x -> read_block_fuel f' st es it = Ok x.
Proof.
  induction f as [|f IH]; intros f' st es it x L H; [discriminate H|]. destruct f' as [|f']; [lia|]. cbn [read_block_fuel] in *.
  destruct (run arms false (S (length it)) it st []) as [[y r]|]; cbn [bind] in *; [|discriminate H]. destruct r as [|[p|e] r]; [exact H| |exact H]. destruct (is_zero "ENDBLK" p); [exact H|].
  destruct (collect (Ok p :: r)) as [[l r2]|]; cbn [bind] in *; [|discriminate H]. apply (IH f'); [lia|exact H].
Qed.

(** * Whole entities, and the malformed one *)
(** [c], the pairs behind 0/[n], is an entity [x] that needs no others. *)
Definition whole (n : string) (c : list pair) (x : raw) : Prop := gathers (kind_of x) = false /\
  forall z rest, p_code z = 0 -> read_entity (Ok (item n) :: map Ok c ++ Ok z :: rest) = Ok (Some x, Ok z :: rest).
Definition pairs_of (cs : list (string * list pair)) : list pair := flat_map (fun x => item (fst x) :: snd x) cs.
(** The pairs [c] behind 0/[n] are read, and more are needed. *)
Definition broken_off (n : string) (c : list pair) : Prop := forall e w, read_entity (Ok (item n) :: map Ok c ++ Err e :: w) = Err e.
Lemma plain_collect e : gathers (kind_of e) = false -> forall (s1 : ents) f,
  (let? (x, s2) := (if has_mtext (kind_of e) then let? (m, s2) := take_mtext s1 in Ok (entity_of e [] (match m with Some m => m | None => default_mtext end), s2)
    else if is_kind "Insert" e && has_attributes e then let? (l, s2) := take_children "Attribute" (ents_fuel s1) s1 in let? s3 := swallow_seqend s2 in Ok (entity_of e l default_mtext, s3)
    else if is_kind "Polyline" e then let? (l, s2) := take_children "Vertex" (ents_fuel s1) s1 in let? s3 := swallow_seqend s2 in Ok (entity_of e l default_mtext, s3)
    else Ok (entity_of e [] default_mtext, s1)) in f x s2) = (f (entity_of e [] default_mtext) s1 : res (list entity * feed)).
Proof.
  intros G s1 f. unfold gathers in G. apply orb_false_iff in G as [G G3]. apply orb_false_iff in G as [G1 G2]. rewrite G1. unfold is_kind. rewrite G2, G3. reflexivity.
Qed.
Lemma entity_next_ok it x r : read_entity it = Ok (Some x, r) -> entity_next it = Ok (Some x, r).
Proof. intros H. unfold entity_next, swallow. rewrite H. reflexivity. Qed.
Lemma collect_plain f it x r : gathers (kind_of x) = false -> read_entity it = Ok (Some x, r) ->
  collect_fuel (S f) (None, it) = let? (l, r') := collect_fuel f (None, r) in Ok (entity_of x [] default_mtext :: l, r').
Proof.
  intros G H. cbn [collect_fuel]. unfold pnext at 1. cbn [fst snd]. rewrite (entity_next_ok it x r H). cbn [bind]. apply (plain_collect x G (None, r) (fun x0 s2 => let? (l, r') := collect_fuel f s2 in Ok (x0 :: l, r'))).
Qed.
Lemma whole_collect : forall cs xs, Forall2 (fun c x => whole (fst c) (snd c) x) cs xs -> forall z tail f, p_code z = 0 ->
  collect_fuel (length cs + f) (None, map Ok (pairs_of cs) ++ Ok z :: tail) = let? (l, r) := collect_fuel f (None, Ok z :: tail) in Ok (map (fun x => entity_of x [] default_mtext) xs ++ l, r).
Proof.
  intros cs xs F. induction F as [|[n c] x cs xs [G W] F IH]; intros z tail f Hz.
  - cbn [length Nat.add pairs_of flat_map map app]. destruct (collect_fuel f (None, Ok z :: tail)) as [[l r]|]; reflexivity.
  - cbn [length Nat.add pairs_of flat_map fst snd]. fold (pairs_of cs). cbn [fst snd] in *. rewrite map_app, <- app_assoc. cbn [map app].
    assert (Q : exists z' tail', map Ok (pairs_of cs) ++ Ok z :: tail = Ok z' :: tail' /\ p_code z' = 0).
    { destruct cs as [|[n' c'] cs]; [exists z, tail; split; [reflexivity|exact Hz]|]. cbn [pairs_of flat_map fst snd map app]. do 2 eexists. split; [reflexivity|reflexivity]. }
    destruct Q as (z' & tail' & Q & Hz'). specialize (IH z tail f Hz). rewrite Q in *. rewrite (collect_plain _ _ x (Ok z' :: tail') G (W z' tail' Hz')). rewrite IH.
    destruct (collect_fuel f (None, Ok z :: tail)) as [[l r]|]; reflexivity.
Qed.
Lemma broken_next n c e w : broken_off n c -> genuine e -> entity_next (Ok (item n) :: map Ok c ++ Err e :: w) = Ok (None, w).
Proof.
  intros B [G1 G2]. unfold entity_next, swallow. rewrite (B e w). assert (A : after_error read_entity (Ok (item n) :: map Ok c ++ Err e :: w) = w).
  { unfold after_error. assert (S : forall y p, map Ok (item n :: c) = map Ok p ++ y -> stop_behind read_entity (rev (map Ok p)) (y ++ Err e :: w) = w).
    { induction y as [|a y IH]; intros p E.
      - rewrite app_nil_r in E. cbn [app stop_behind]. assert (Ep : p = item n :: c) by (clear - E; revert p E; generalize (item n :: c); induction l as [|a l IH]; intros [|b p] E; [reflexivity|discriminate E|discriminate E|]; injection E as E1 E2; subst; f_equal; exact (IH p E2)).
        subst p. rewrite rev_involutive. cbn [map app]. pose proof (B OutOfFuel []) as H. cbn [marker]. unfold marker. rewrite H. 
        destruct w as [|y w]; cbn [stop_behind].
        + cbn [rev]. rewrite rev_app_distr. cbn [rev app]. rewrite rev_involutive. cbn [app]. rewrite <- app_assoc. cbn [app]. rewrite (B e [marker]). destruct e; try reflexivity; contradiction G1; reflexivity.
        + cbn [rev]. rewrite rev_app_distr. cbn [rev app]. rewrite rev_involutive. cbn [app]. rewrite <- app_assoc. cbn [app]. rewrite (B e [marker]). destruct e; try reflexivity; contradiction G1; reflexivity.
      - assert (Ea : exists q, a = Ok q).
        { assert (I : In a (map Ok (item n :: c))) by (rewrite E; apply in_or_app; right; left; reflexivity). apply in_map_iff in I as (q & <- & _). exists q. reflexivity. }
        destruct Ea as [q ->]. cbn [app stop_behind]. rewrite rev_involutive.
        assert (H : read_entity (map Ok p ++ [marker]) = Err OutOfFuel).
        { pose proof (B OutOfFuel []) as H. change (Ok (item n) :: map Ok c ++ [Err OutOfFuel]) with (map Ok (item n :: c) ++ [Err OutOfFuel]) in H. rewrite E, <- app_assoc in H.
          destruct (read_entity_local (map Ok p) [marker] ((Ok q :: y) ++ [Err OutOfFuel]) ltac:(rewrite app_length; cbn [length]; lia)) as [(x & s & _ & _ & X)|[(e0 & X & X')|X]].
          - rewrite H in X. discriminate X.
          - rewrite H in X'. injection X' as <-. exact X.
          - unfold touched in X. destruct (read_entity (map Ok p ++ [marker])) as [[? ?]|e0]; [destruct X as [X _]; contradiction X; reflexivity|]. rewrite (X eq_refl). reflexivity. }
        rewrite H. change (Ok q :: rev (map Ok p)) with (rev [Ok q] ++ rev (map (@Ok pair) p)). rewrite <- rev_app_distr. change [Ok q] with (map (@Ok pair) [q]). rewrite <- map_app. apply IH.
        rewrite map_app, <- app_assoc. exact E. }
    exact (S (map Ok (item n :: c)) [] eq_refl). }
  rewrite A. destruct e; try reflexivity; contradiction.
Qed.

(** * A block with a malformed pair in one of its entities *)
Definition damaged (head : list pair) (cs : list (string * list pair)) (n : string) (c : list pair) (e : dxf_error) (left : list pair) (z : pair) (tail : feed) : feed :=
  map Ok (head ++ pairs_of cs) ++ Ok (item n) :: map Ok c ++ Err e :: map Ok left ++ Ok z :: tail.
Definition mended (head : list pair) (cs : list (string * list pair)) (left : list pair) (z : pair) (tail : feed) : feed := map Ok (head ++ left ++ pairs_of cs) ++ Ok z :: tail.
Lemma first_zero (cs : list (string * list pair)) z (tail : feed) : p_code z = 0 -> exists z' tail', map Ok (pairs_of cs) ++ Ok z :: tail = Ok z' :: tail' /\ p_code z' = 0 /\ match cs with [] => z' = z /\ tail' = tail | x :: _ => z' = item (fst x) end.
Proof.
  intros H. destruct cs as [|[n c] cs]; [exists z, tail; split; [reflexivity|split; [exact H|split; reflexivity]]|]. cbn [pairs_of flat_map fst snd map app]. do 2 eexists. split; [reflexivity|split; reflexivity].
Qed.
Lemma not_endblk n c it x r : read_entity (Ok (item n) :: map Ok c ++ it) = Ok (Some x, r) \/ (exists e, read_entity (Ok (item n) :: map Ok c ++ it) = Err e) -> is_zero "ENDBLK" (item n) = false.
Proof.
  intros H. destruct (is_zero "ENDBLK" (item n)) eqn:E; [|reflexivity]. exfalso. assert (Q : read_entity (Ok (item n) :: map Ok c ++ it) = Ok (None, Ok (item n) :: map Ok c ++ it)); [|destruct H as [H|[e H]]; rewrite Q in H; discriminate H].
  apply is_zero_eq in E. rewrite E. reflexivity.
Qed.
Lemma block_damaged head cs xs n c e lft z tail b r :
  field_codes head -> field_codes lft -> Forall2 (fun c x => whole (fst c) (snd c) x) cs xs -> broken_off n c -> genuine e -> p_code z = 0 -> reports (Ok z :: tail) ->
  forall st f, read_block_fuel f st [] (mended head cs lft z tail) = Ok (b, r) -> read_block_fuel (S f) st [] (damaged head cs n c e lft z tail) = Ok (b, r).
Proof.
  intros Fh Fl W B G Hz Hr st f H. destruct f as [|f]; [discriminate H|]. cbn [read_block_fuel] in H. unfold mended in H.
  destruct (run_fields head Fh st) as [m1 E1]. rewrite map_app, <- app_assoc in H. rewrite E1 in H by (rewrite app_length, map_length; lia). destruct m1 as [st1|]; [|discriminate H]. cbn [bind] in H.
  destruct (run_fields lft Fl st1) as [m2 E2]. rewrite map_app, <- app_assoc in H. rewrite E2 in H by (rewrite !app_length, !map_length; lia). destruct m2 as [st2|]; [|discriminate H]. cbn [bind] in H.
  destruct (first_zero cs z tail Hz) as (z' & tail' & Q & Hz' & Q'). rewrite Q in H. rewrite run_zero in H by (try exact Hz'; rewrite !app_length, !map_length; cbn [length]; lia). cbn [bind fst] in H.
  set (ents := map (fun x => entity_of x [] default_mtext) xs).
  (* behind the malformed pair *)
  assert (R : read_block_fuel (S f) st1 ents (map Ok lft ++ Ok z :: tail) = Ok (b, r)).
  { assert (R0 : forall f', read_block_fuel (S f') st1 ents (map Ok lft ++ Ok z :: tail) =
      if is_zero "ENDBLK" z then let? r'' := skip_item tail in Ok (block_of st2 ents, r'') else let? (l, r'') := collect (Ok z :: tail) in read_block_fuel f' st2 (ents ++ l) r'').
    { intros f'. cbn [read_block_fuel]. rewrite E2 by (rewrite app_length, map_length; lia). cbn [bind]. rewrite run_zero by (try exact Hz; rewrite app_length, map_length; cbn [length]; lia). reflexivity. }
    destruct cs as [|[n1 c1] cs1] eqn:Ecs.
    - destruct Q' as [-> ->]. inversion W; subst xs. rewrite R0. exact H.
    - assert (Zn : is_zero "ENDBLK" z' = false).
      { rewrite Q'. inversion W as [|? x ? ? [_ Wx] _]; subst. cbn [fst snd] in *. apply (not_endblk n1 c1 [Ok z] x [Ok z]). left. apply Wx. exact Hz. }
      rewrite Zn in H. rewrite <- Q, <- Ecs in H. rewrite <- Ecs in W.
      destruct (collect (map Ok (pairs_of cs) ++ Ok z :: tail)) as [[l r1]|] eqn:C; cbn [bind] in H; [|discriminate H].
      unfold collect in C. set (k := S (length (map Ok (pairs_of cs) ++ Ok z :: tail))) in C. apply (collect_more k (length cs + k) _ _ ltac:(lia)) in C; [|discriminate]. rewrite (whole_collect cs xs W z tail k Hz) in C. fold ents in C.
      destruct (collect_fuel k (None, Ok z :: tail)) as [[l2 r2]|] eqn:C2; cbn [bind] in C; [|discriminate C]. injection C as <- <-.
      destruct (is_zero "ENDBLK" z) eqn:Ez.
      + assert (P : read_entity (Ok z :: tail) = Ok (None, Ok z :: tail)).
        { apply is_zero_eq in Ez. subst z. reflexivity. }
        unfold k in C2. cbn [collect_fuel] in C2. unfold pnext, entity_next, swallow in C2. cbn [fst snd] in C2. rewrite P in C2. cbn [bind fst snd] in C2. injection C2 as <- <-. rewrite app_nil_r in H.
        rewrite R0. destruct f as [|f]; [discriminate H|]. cbn [read_block_fuel] in H. rewrite run_zero in H by (try exact Hz; cbn [length]; lia). cbn [bind fst] in H. rewrite Ez in H. exact H.
      + rewrite R0. assert (C3 : collect (Ok z :: tail) = Ok (l2, r2)).
        { apply (collect_same k); [exact Hr| |exact C2]. unfold k. rewrite app_length. lia. }
        rewrite C3. cbn [bind]. exact H. }
  set (g := S f) in *. cbn [read_block_fuel]. unfold damaged. rewrite map_app, <- app_assoc. rewrite E1 by (rewrite app_length, map_length; lia). cbn [bind].
  destruct (first_zero cs (item n) (map Ok c ++ Err e :: map Ok lft ++ Ok z :: tail) eq_refl) as (z2 & tail2 & P & Hz2 & P'). rewrite P. rewrite run_zero by (try exact Hz2; rewrite !app_length, !map_length; cbn [length]; lia). cbn [bind fst].
  assert (Zn : is_zero "ENDBLK" z2 = false).
  { destruct cs as [|[n1 c1] cs1].
    - destruct P' as [-> _]. apply (not_endblk n c [Err e] (hd (block_head, st) (map (fun x => x) xs)) []). right. exists e. apply (B e []).
    - rewrite P'. inversion W as [|? x ? ? [_ Wx] _]; subst. cbn [fst snd] in *. apply (not_endblk n1 c1 [Ok z] x [Ok z]). left. apply Wx. exact Hz. }
  rewrite Zn, <- P. 
  assert (C : collect (map Ok (pairs_of cs) ++ Ok (item n) :: map Ok c ++ Err e :: map Ok lft ++ Ok z :: tail) = Ok (ents, map Ok lft ++ Ok z :: tail)).
  { unfold collect. apply (collect_more (length cs + 1)); [| |discriminate].
    - rewrite app_length, map_length. assert (length cs <= length (pairs_of cs))%nat; [|cbn [length]; lia]. clear. induction cs as [|[a b] cs IH]; cbn [pairs_of flat_map length fst snd]; [lia|]. rewrite app_length. fold (pairs_of cs). cbn [length]. lia.
    - rewrite (whole_collect cs xs W (item n) _ 1 eq_refl). cbn [collect_fuel]. unfold pnext. cbn [fst snd]. rewrite (broken_next n c e _ B G). cbn [bind snd]. rewrite app_nil_r. reflexivity. }
  rewrite C. cbn [bind app]. exact R.
Qed.

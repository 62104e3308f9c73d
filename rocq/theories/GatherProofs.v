(** What [collect] does with a sequence of complete entities. *)
From Verif Require Import Base F64Model CodePairModel CodePairProofs ReaderProofs VersionModel StreamModel ExtDataModel SpecModel SpecSpec TableData EntityData
  ObjectData SectionData HeaderModel HeaderData CustomModel ThumbnailModel DrawingModel FileModel SuffixProofs LoadSpec LoadProofs SkipProofs.
Open Scope string_scope.
Open Scope list_scope.
Open Scope Z_scope.
Set Default Goal Selector "!".

(** A sequence of items that are read as [xs], whatever follows. *)
Inductive reads_as {A} (rd : feed -> res (option A * feed)) : list pair -> list A -> Prop :=
| reads_nil : reads_as rd [] []
| reads_cons ps x l xs : (exists p r, ps = p :: r /\ p_code p = 0) -> delimited rd ps x -> reads_as rd l xs -> reads_as rd (ps ++ l) (x :: xs).
Lemma reads_next {A} (rd : feed -> res (option A * feed)) l xs rest : reads_as rd l xs -> next_item rest -> next_item (map Ok l ++ rest).
Proof.
  intros H Hr. destruct H as [|ps x l xs [p [r [-> Hp]]] _ _]; [exact Hr|]. cbn [app map]. eexists. eexists. split; [reflexivity|exact Hp].
Qed.
Lemma reads_app {A} (rd : feed -> res (option A * feed)) l xs l2 xs2 : reads_as rd l xs -> reads_as rd l2 xs2 -> reads_as rd (l ++ l2) (xs ++ xs2).
Proof. intros H H2. induction H as [|ps x l xs Hp Hd H IH]; [exact H2|]. rewrite <- app_assoc. cbn [app]. apply reads_cons; assumption. Qed.
Lemma reads_length {A} (rd : feed -> res (option A * feed)) l xs : reads_as rd l xs -> (length xs <= length l)%nat.
Proof. induction 1 as [|ps x l xs [p [r [-> _]]] _ _ IH]; [apply le_n|]. cbn [app length]. rewrite app_length. lia. Qed.
Lemma reads_items {A} (rd : feed -> res (option A * feed)) names l xs : reads_as rd l xs -> items rd names l l.
Proof. induction 1; [apply items_nil|]. eapply items_known; eassumption. Qed.
Lemma items_reads {A} (rd : feed -> res (option A * feed)) names l l' : items rd names l l' -> exists xs, reads_as rd l' xs.
Proof. induction 1 as [|ps l l' _ _ IH|ps x l l' Hp Hd _ [xs IH]]; [exists []; apply reads_nil|exact IH|]. exists (x :: xs). apply reads_cons; assumption. Qed.

(** The entities made of a sequence of them. *)
Fixpoint leading (n : string) (xs : list raw) : list raw * list raw :=
  match xs with
  | [] => ([], [])
  | e :: r => if is_kind n e then let (a, b) := leading n r in (e :: a, b) else ([], xs)
  end.
Definition without_seqend (xs : list raw) : list raw := match xs with e :: r => if is_kind "Seqend" e then r else xs | [] => [] end.
Definition children_of (xs : list raw) : list (list (string * fval) * N) := map (fun e => (child_of e default_mtext, auto_replace)) xs.
Definition gather_one (e : raw) (xs : list raw) : entity * list raw :=
  if has_mtext (kind_of e) then
    match xs with
    | m :: r => if is_kind "MText" m then (entity_of e [] (pack_mtext (snd m)), r) else (entity_of e [] default_mtext, xs)
    | [] => (entity_of e [] default_mtext, [])
    end
  else if is_kind "Insert" e && has_attributes e then
    let (a, b) := leading "Attribute" xs in (entity_of e (children_of a) default_mtext, without_seqend b)
  else if is_kind "Polyline" e then
    let (a, b) := leading "Vertex" xs in (entity_of e (children_of a) default_mtext, without_seqend b)
  else (entity_of e [] default_mtext, xs).
Fixpoint gather_fuel (fuel : nat) (xs : list raw) : list entity :=
  match fuel, xs with
  | S f, e :: r => let (x, r') := gather_one e r in x :: gather_fuel f r'
  | _, _ => []
  end.
Definition gather (xs : list raw) : list entity := gather_fuel (length xs) xs.
Lemma leading_length n xs : (length (snd (leading n xs)) <= length xs)%nat.
Proof. induction xs as [|e xs IH]; [apply le_n|]. cbn [leading]. destruct (is_kind n e); [|apply le_n]. destruct (leading n xs). cbn [snd length] in *. lia. Qed.
Lemma seqend_length xs : (length (without_seqend xs) <= length xs)%nat.
Proof. destruct xs as [|e xs]; [apply le_n|]. cbn [without_seqend]. destruct (is_kind "Seqend" e); cbn [length]; lia. Qed.
Lemma gather_one_length e xs : (length (snd (gather_one e xs)) <= length xs)%nat.
Proof.
  unfold gather_one. destruct (has_mtext (kind_of e)); [destruct xs as [|m xs]; [apply le_n|]; destruct (is_kind "MText" m); cbn [snd length]; lia|].
  assert (L : forall n, (length (snd (let (a, b) := leading n xs in (entity_of e (children_of a) default_mtext, without_seqend b))) <= length xs)%nat).
  { intros n. pose proof (leading_length n xs) as H. destruct (leading n xs) as [a b]. cbn [snd] in *. pose proof (seqend_length b). lia. }
  destruct (is_kind "Insert" e && has_attributes e); [apply L|]. destruct (is_kind "Polyline" e); [apply L|]. apply le_n.
Qed.
Lemma gather_more : forall f f' xs, (length xs <= f)%nat -> (length xs <= f')%nat -> gather_fuel f xs = gather_fuel f' xs.
Proof.
  induction f as [|f IH]; intros f' xs H H'.
  - destruct xs; [|cbn in H; lia]. destruct f'; reflexivity.
  - destruct xs as [|e xs]; [destruct f'; reflexivity|]. destruct f' as [|f']; [cbn in H'; lia|]. cbn [gather_fuel length] in *.
    pose proof (gather_one_length e xs) as L. destruct (gather_one e xs) as [x r]. cbn [snd] in L. rewrite (IH f' r); [reflexivity|lia|lia].
Qed.
Lemma gather_cons e xs : gather (e :: xs) = let (x, r) := gather_one e xs in x :: gather r.
Proof.
  unfold gather. cbn [length gather_fuel]. pose proof (gather_one_length e xs) as L. destruct (gather_one e xs) as [x r]. cbn [snd] in L.
  rewrite (gather_more (length xs) (length r) r); [reflexivity|lia|lia].
Qed.

Section Gather.
  (** What follows the entities ends them. *)
  Variable rest : feed.
  Hypothesis Hnext : next_item rest.
  Hypothesis Hend : read_entity rest = Ok (None, rest).
  Definition holds (s : ents) (xs : list raw) : Prop :=
    exists l xs0, snd s = map Ok l ++ rest /\ reads_as read_entity l xs0 /\ xs = match fst s with Some e => e :: xs0 | None => xs0 end.
  Lemma holds_length s xs : holds s xs -> (length xs <= weight s)%nat.
  Proof.
    intros [l [xs0 [Hs [H ->]]]]. unfold weight. rewrite Hs, app_length, map_length. pose proof (reads_length _ _ _ H). destruct (fst s); cbn [length]; lia.
  Qed.
  Lemma pnext_holds s xs : holds s xs ->
    exists s', pnext s = Ok (hd_error xs, s') /\ holds s' (tl xs) /\ fst s' = None.
  Proof.
    intros [l [xs0 [Hs [H ->]]]]. unfold pnext. destruct (fst s) as [e|].
    - exists (None, snd s). split; [reflexivity|]. split; [|reflexivity]. exists l, xs0. auto.
    - rewrite Hs. destruct H as [|ps x l xs0 Hp Hd H].
      + cbn [map app]. unfold entity_next, swallow. rewrite Hend. cbn [bind]. exists (None, rest). split; [reflexivity|]. split; [|reflexivity]. exists [], []. split; [reflexivity|]. split; [apply reads_nil|reflexivity].
      + unfold entity_next, swallow. rewrite map_app, <- app_assoc, (Hd _ (reads_next _ _ _ _ H Hnext)). cbn [bind]. exists (None, map Ok l ++ rest). split; [reflexivity|]. split; [|reflexivity].
        exists l, xs0. split; [reflexivity|]. split; [exact H|reflexivity].
  Qed.
  Lemma back_holds e s xs : holds s xs -> fst s = None -> holds (Some e, snd s) (e :: xs).
  Proof. intros [l [xs0 [Hs [H ->]]]] Hn. rewrite Hn. exists l, xs0. auto. Qed.
  Lemma seqend_holds s xs : holds s xs -> exists s', swallow_seqend s = Ok s' /\ holds s' (without_seqend xs).
  Proof.
    intros H. unfold swallow_seqend. destruct (pnext_holds s xs H) as [s' [-> [H' Hn]]]. cbn [bind]. destruct xs as [|e xs]; cbn [hd_error tl without_seqend] in *; [exists s'; auto|].
    destruct (is_kind "Seqend" e); [exists s'; auto|]. exists (Some e, snd s'). split; [reflexivity|]. apply back_holds; assumption.
  Qed.
  Lemma children_holds n : forall f s xs, holds s xs -> (length xs < f)%nat ->
    exists s', take_children n f s = Ok (children_of (fst (leading n xs)), s') /\ holds s' (snd (leading n xs)).
  Proof.
    induction f as [|f IH]; intros s xs H Hf; [lia|]. cbn [take_children]. destruct (pnext_holds s xs H) as [s' [-> [H' Hn]]]. cbn [bind].
    destruct xs as [|e xs]; cbn [hd_error tl leading] in *; [exists s'; auto|]. destruct (is_kind n e).
    - cbn [length] in Hf. destruct (IH s' xs H' ltac:(lia)) as [s2 [-> H2]]. cbn [bind]. exists s2. destruct (leading n xs). split; [reflexivity|exact H2].
    - exists (Some e, snd s'). split; [reflexivity|]. apply back_holds; assumption.
  Qed.
  Lemma assemble_holds e s xs : holds s xs -> exists s', assemble e s = Ok (fst (gather_one e xs), s') /\ holds s' (snd (gather_one e xs)).
  Proof.
    intros H. unfold assemble, gather_one. destruct (has_mtext (kind_of e)).
    - unfold take_mtext. destruct (pnext_holds s xs H) as [s' [-> [H' Hn]]]. cbn [bind]. destruct xs as [|m xs]; cbn [hd_error tl] in *; [exists s'; auto|].
      destruct (is_kind "MText" m); cbn [bind]; [exists s'; auto|]. exists (Some m, snd s'). split; [reflexivity|]. apply back_holds; assumption.
    - assert (Hch : forall n, exists s', (let? (l, s3) := take_children n (ents_fuel s) s in let? s4 := swallow_seqend s3 in Ok (entity_of e l default_mtext, s4))
          = Ok (fst (let (a, b) := leading n xs in (entity_of e (children_of a) default_mtext, without_seqend b)), s') /\
          holds s' (snd (let (a, b) := leading n xs in (entity_of e (children_of a) default_mtext, without_seqend b)))).
      { intros n. destruct (children_holds n (ents_fuel s) s xs H) as [s2 [-> H2]].
        - pose proof (holds_length _ _ H). pose proof (fuel_enough s). lia.
        - cbn [bind]. destruct (leading n xs) as [a b]. cbn [fst snd] in *. destruct (seqend_holds s2 b H2) as [s3 [-> H3]]. cbn [bind]. exists s3. auto. }
      destruct (is_kind "Insert" e && has_attributes e); [apply Hch|]. destruct (is_kind "Polyline" e); [apply Hch|]. exists s. auto.
  Qed.
  Lemma collect_holds : forall f s xs, holds s xs -> (length xs < f)%nat -> collect_fuel f s = Ok (gather xs, rest).
  Proof.
    induction f as [|f IH]; intros s xs H Hf; [lia|]. rewrite collect_step. pose proof (pnext_holds s xs H) as [s' [-> [H' Hn]]]. cbn [bind].
    destruct xs as [|e xs]; cbn [hd_error tl length] in *.
    - destruct H' as [l [xs0 [-> [R E]]]]. rewrite Hn in E. subst xs0. inversion R. reflexivity.
    - destruct (assemble_holds e s' xs H') as [s2 [-> H2]]. cbn [bind]. rewrite gather_cons. pose proof (gather_one_length e xs) as L. destruct (gather_one e xs) as [x r]. cbn [fst snd] in *.
      rewrite (IH s2 r H2) by lia. reflexivity.
  Qed.
End Gather.
Lemma collect_reads rest l xs : next_item rest -> read_entity rest = Ok (None, rest) -> reads_as read_entity l xs -> collect (map Ok l ++ rest) = Ok (gather xs, rest).
Proof.
  intros Hn He H. unfold collect. apply collect_holds; [exact Hn|exact He| |].
  - exists l, xs. auto.
  - rewrite app_length, map_length. pose proof (reads_length _ _ _ H). lia.
Qed.
Lemma ends_entities (stop : string) rest : In stop ["ENDSEC"; "ENDBLK"] -> read_entity (Ok (item stop) :: rest) = Ok (None, Ok (item stop) :: rest).
Proof. intros [<-|[<-|[]]]; reflexivity. Qed.
Lemma next_of (stop : string) rest : next_item (Ok (item stop) :: rest).
Proof. exists (item stop), rest. split; reflexivity. Qed.
Lemma collect_items stop rest l l' : In stop ["ENDSEC"; "ENDBLK"] -> reports rest -> items read_entity entity_names l l' ->
  exists es, collect (map Ok l ++ Ok (item stop) :: rest) = Ok (es, Ok (item stop) :: rest) /\ collect (map Ok l' ++ Ok (item stop) :: rest) = Ok (es, Ok (item stop) :: rest).
Proof.
  intros Hs Hr Hi. destruct (items_reads _ _ _ _ Hi) as [xs Hx]. exists (gather xs).
  pose proof (collect_reads (Ok (item stop) :: rest) l' xs (next_of _ _) (ends_entities _ _ Hs) Hx) as C. split; [|exact C]. rewrite <- C.
  apply (collect_agree (Ok (item stop) :: rest) (next_of _ _)); [|apply rel_items, Hi|unfold weight; cbn; lia|unfold weight; cbn; lia].
  intros e [He|He]; [discriminate He|exact (Hr e He)].
Qed.

(** Blocks. *)
Lemma block_arms_lone : lone_arms (sp_arms (it_spec block_head)) = true.
Proof. vm_compute. reflexivity. Qed.
Lemma items_start l l' : items read_entity entity_names l l' -> forall p r, l = p :: r -> is_zero "ENDBLK" p = false /\ p_code p = 0.
Proof.
  induction 1 as [|ps l l' H Hi IH|ps x l l' [q [r0 [-> Hq]]] H Hi IH]; intros p r E; [discriminate E| |].
  - destruct H as [s [body [-> [Hs _]]]]. cbn [app] in E. injection E as <- _. split; [|reflexivity]. destruct (is_zero "ENDBLK" _) eqn:Z; [|reflexivity].
    apply is_zero_eq in Z. unfold zero in Z. injection Z as ->. exfalso. apply Hs. right. left. reflexivity.
  - cbn [app] in E. injection E as <- _. split; [|exact Hq]. destruct (is_zero "ENDBLK" q) eqn:Z; [|reflexivity]. apply is_zero_eq in Z. subst q.
    specialize (H [Ok (item "ENDSEC")] (next_of _ _)). cbn [map app] in H. rewrite (ends_entities "ENDBLK") in H by (cbn; tauto). discriminate H.
Qed.
(** A block whose fields are read from [head] and whose entities from [l]. *)
Lemma block_reads st head l x es rest :
  run (sp_arms (it_spec block_head)) false (S (length (map Ok head ++ map Ok l ++ Ok (item "ENDBLK") :: rest))) (map Ok head ++ map Ok l ++ Ok (item "ENDBLK") :: rest) st [] =
    Ok (x, map Ok l ++ Ok (item "ENDBLK") :: rest) ->
  (forall p r, l = p :: r -> is_zero "ENDBLK" p = false /\ p_code p = 0) ->
  collect (map Ok l ++ Ok (item "ENDBLK") :: rest) = Ok (es, Ok (item "ENDBLK") :: rest) ->
  forall f, (1 < f)%nat -> read_block_fuel f st [] (map Ok head ++ map Ok l ++ Ok (item "ENDBLK") :: rest) = let? r := skip_item rest in Ok (block_of (fst x) es, r).
Proof.
  intros Hh Hl C f Hf. destruct f as [|[|f]]; [lia|lia|]. clear Hf.
  assert (Zb : is_zero "ENDBLK" (item "ENDBLK") = true) by (apply is_zero_eq; reflexivity).
  assert (Tail : forall es, read_block_fuel (S f) (fst x) es (Ok (item "ENDBLK") :: rest) = let? r := skip_item rest in Ok (block_of (fst x) es, r)).
  { intros es0. transitivity (let? (y, r) := Ok ((fst x, []) : store * list Z, Ok (item "ENDBLK") :: rest) in
      match r with Ok p :: r' => if is_zero "ENDBLK" p then let? r'' := skip_item r' in Ok (block_of (fst y) es0, r'') else let? (l1, r'') := collect r in read_block_fuel f (fst y) (es0 ++ l1) r''
      | _ => Err UnexpectedEndOfInput end); [reflexivity|]. cbn [bind fst]. rewrite Zb. reflexivity. }
  transitivity (let? (y, r) := run (sp_arms (it_spec block_head)) false (S (length (map Ok head ++ map Ok l ++ Ok (item "ENDBLK") :: rest))) (map Ok head ++ map Ok l ++ Ok (item "ENDBLK") :: rest) st [] in
      match r with Ok p :: r' => if is_zero "ENDBLK" p then let? r'' := skip_item r' in Ok (block_of (fst y) [], r'') else let? (l1, r'') := collect r in read_block_fuel (S f) (fst y) ([] ++ l1) r''
      | _ => Err UnexpectedEndOfInput end); [reflexivity|].
  destruct l as [|p l]; cbn [map app].
  - cbn [map app] in Hh. rewrite Hh. cbn [bind]. rewrite Zb. cbn [map app] in C. unfold collect in C. cbn [collect_fuel length] in C. unfold pnext, entity_next, swallow in C. cbn [fst snd] in C.
    rewrite (ends_entities "ENDBLK") in C by (cbn; tauto). cbn [bind snd] in C. injection C as <-. reflexivity.
  - destruct (Hl p l eq_refl) as [Hz Hc]. cbn [map app] in Hh. rewrite Hh. cbn [bind]. rewrite Hz.
    change (Ok p :: map Ok l ++ Ok (item "ENDBLK") :: rest) with (map Ok (p :: l) ++ Ok (item "ENDBLK") :: rest). rewrite C. cbn [bind app]. apply Tail.
Qed.
Lemma items_start' l l' : items read_entity entity_names l l' -> forall p r, l' = p :: r -> is_zero "ENDBLK" p = false /\ p_code p = 0.
Proof.
  intros Hi. apply (items_start l' l'). destruct (items_reads _ _ _ _ Hi) as [xs H]. exact (reads_items _ _ _ _ H).
Qed.
Lemma block_skips d head l l' rest : (forall p, In p head -> lone (p_code p)) -> reports rest -> items read_entity entity_names l l' ->
  read_block d (map Ok head ++ map Ok l ++ Ok (item "ENDBLK") :: rest) = read_block d (map Ok head ++ map Ok l' ++ Ok (item "ENDBLK") :: rest).
Proof.
  intros Hh Hr Hi. unfold read_block. set (st := default_of _). destruct (collect_items "ENDBLK" rest l l' (or_intror (or_introl eq_refl)) Hr Hi) as [es [C C']].
  destruct (run_lone _ head block_arms_lone Hh st []) as [[x H]|[e H]].
  - assert (RH : forall rest, next_item rest -> run (sp_arms (it_spec block_head)) false (S (length (map Ok head ++ rest))) (map Ok head ++ rest) st [] = Ok (x, rest)).
    { intros r [q [r' [-> Hq]]]. rewrite app_length, map_length, <- Nat.add_succ_r, H. cbn [run]. rewrite Hq. destruct x. reflexivity. }
    destruct (items_reads _ _ _ _ Hi) as [xs Hx]. pose proof (reads_next _ _ _ _ Hx (next_of "ENDBLK" rest)) as N'.
    assert (N : next_item (map Ok l ++ Ok (item "ENDBLK") :: rest)).
    { destruct l as [|p l]; [apply next_of|]. exists p, (map Ok l ++ Ok (item "ENDBLK") :: rest). split; [reflexivity|]. exact (proj2 (items_start _ _ Hi p l eq_refl)). }
    rewrite (block_reads st head l x es rest (RH _ N) (items_start _ _ Hi) C), (block_reads st head l' x es rest (RH _ N') (items_start' _ _ Hi) C')
      by (rewrite !app_length; cbn [length]; lia). reflexivity.
  - assert (RH : forall rest, run (sp_arms (it_spec block_head)) false (S (length (map Ok head ++ rest))) (map Ok head ++ rest) st [] = Err e).
    { intros r. rewrite app_length, map_length, <- Nat.add_succ_r. apply H. }
    assert (B : forall f y, read_block_fuel (S f) st [] (map Ok head ++ y) = Err e).
    { intros f y. transitivity (let? (z, r) := run (sp_arms (it_spec block_head)) false (S (length (map Ok head ++ y))) (map Ok head ++ y) st [] in
        match r with Ok p :: r' => if is_zero "ENDBLK" p then let? r'' := skip_item r' in Ok (block_of (fst z) [], r'') else let? (l1, r'') := collect r in read_block_fuel f (fst z) ([] ++ l1) r''
        | _ => Err UnexpectedEndOfInput end); [reflexivity|]. rewrite RH. reflexivity. }
    rewrite !B. reflexivity.
Qed.

(** * Sections *)
Lemma load_section sw env u d name it : (u = true \/ kept_good anyE sw it) -> good anyE it ->
  load_from sw env u d (Ok (item "SECTION") :: Ok (mk_pair 2 (VStr name)) :: it) =
  (let? (x, r) := read_section sw env name u d it in let? r' := expect "ENDSEC" r in load_from sw env (snd x) (fst x) r').
Proof.
  intros Hsw Hg. pose proof (section_left sw env name u d it Hsw Hg) as L. unfold load_from.
  set (n := length (Ok (item "SECTION") :: _)). assert (Hn : n = S (S (length it))) by reflexivity. clearbody n.
  unfold read_sections at 1. set (again := fun (d0 : drawing) (it0 : feed) => sections_with sw env (fun _ _ => Err OutOfFuel) (S (length it0)) true d0 it0).
  assert (A : again = fun d0 it0 => sections_with sw env (fun _ _ => Err OutOfFuel) (S (length it0)) true d0 it0) by reflexivity. clearbody again.
  cbn [sections_with p_code item]. change (0 =? 0) with true. unfold assert_string. cbn [p_value item bind].
  change (seqb (str "SECTION") (str "EOF")) with false. change (seqb (str "SECTION") (str "SECTION")) with true. cbn [p_code]. change (2 =? 2) with true. cbn [p_value].
  destruct (read_section sw env name u d it) as [[[d' u'] r]|e]; cbn [bind fst snd]; [|reflexivity]. destruct L as [G [K [_ L]]].
  destruct (expect "ENDSEC" r) as [r'|e] eqn:Ex; cbn [bind]; [|reflexivity]. destruct (expect_tail anyE any_ok _ _ _ Ex) as [L' T].
  pose proof (good_tail _ _ _ T G) as G'. destruct (negb u && u') eqn:Q.
  - apply andb_prop in Q as [_ ->]. unfold read_sections.
    rewrite <- A. replace (again d' r') with (sections_with sw env (fun _ _ => Err OutOfFuel) (S (length r')) true d' r') by (rewrite A; reflexivity).
    rewrite (sections_fuel sw env (fun _ _ => Err OutOfFuel) again (S (length r')) (S (length r')) true d' r'); [reflexivity|left; reflexivity|exact G'|lia|lia].
  - specialize (L eq_refl). rewrite A. fold (read_sections sw env). rewrite (read_sections_fuel sw env n (S (length r')) u' d' r'); [reflexivity| |exact G'|lia|lia].
    destruct K as [K|K]; [left; exact K|right; exact (kept_tail _ _ _ _ T K)].
Qed.
Lemma section_feed name body rest : map Ok (section_of name body) ++ rest = Ok (item "SECTION") :: Ok (mk_pair 2 (VStr name)) :: (map Ok body ++ Ok (item "ENDSEC") :: rest).
Proof. unfold section_of. cbn [map app]. rewrite map_app, <- app_assoc. reflexivity. Qed.
Lemma section_same sw env u d name b b' rest : reports rest -> (u = true \/ (redecodes sw [] (map Ok b ++ Ok (item "ENDSEC") :: rest) /\ redecodes sw [] (map Ok b' ++ Ok (item "ENDSEC") :: rest))) ->
  read_section sw env name u d (map Ok b ++ Ok (item "ENDSEC") :: rest) = read_section sw env name u d (map Ok b' ++ Ok (item "ENDSEC") :: rest) ->
  load_from sw env u d (map Ok (section_of name b) ++ rest) = load_from sw env u d (map Ok (section_of name b') ++ rest).
Proof.
  intros Hr Hsw H. rewrite !section_feed.
  assert (R : forall b, reports (map Ok b ++ Ok (item "ENDSEC") :: rest)) by (intros b0; apply reports_app; intros e [He|He]; [discriminate He|exact (Hr e He)]).
  assert (K : forall b, (u = true \/ redecodes sw [] (map Ok b ++ Ok (item "ENDSEC") :: rest)) -> u = true \/ kept_good anyE sw (map Ok b ++ Ok (item "ENDSEC") :: rest)).
  { intros b0 [X|X]; [left; exact X|right; exact (any_kept _ _ _ X)]. }
  rewrite !load_section; try (apply any_good, R); [rewrite H; reflexivity|apply K; tauto|apply K; tauto].
Qed.

Lemma tables_skip rest : reports rest -> forall l l', table_items read_table l l' -> forall d, read_tables d (map Ok l ++ rest) = read_tables d (map Ok l' ++ rest).
Proof.
  intros Hr. induction 1 as [|name body l l' H Ht IH|body l l' H Ht IH]; intros d; [reflexivity| |].
  - rewrite map_app, <- app_assoc, unknown_table_skipped; [apply IH|exact H|apply reports_app, Hr].
  - destruct (H d) as [d' Hd].
    assert (Q : forall l0, read_tables d (map Ok (item "TABLE" :: body ++ l0) ++ rest) = read_tables d' (map Ok l0 ++ rest)).
    { intros l0. unfold read_tables. set (n := length (map Ok (item "TABLE" :: body ++ l0) ++ rest)).
      assert (N : (length (map Ok l0 ++ rest) < n)%nat) by (subst n; cbn [map app length]; rewrite map_app, !app_length; lia).
      transitivity (read_section_item n "TABLE" read_table d' (map Ok l0 ++ rest)).
      2:{ apply section_item_fuel; [exact read_table_goes|apply reports_app, Hr|exact N|lia]. }
      clearbody n. cbn [map app read_section_item p_code item]. change (0 =? 0) with true. unfold assert_string at 1. cbn [p_value item bind].
      change (seqb (str "TABLE") (str "ENDSEC")) with false. change (seqb (str "TABLE") (str "TABLE")) with true. rewrite map_app, <- app_assoc, Hd. reflexivity. }
    rewrite !Q. apply IH.
Qed.

(** * Written items *)
Lemma entity_delimited t ps st : from_type_string (sp_type (it_spec t)) = Some t ->
  seqb (sp_type (it_spec t)) (str "ENDSEC") || seqb (sp_type (it_spec t)) (str "ENDBLK") = false -> seqb (sp_type (it_spec t)) (str "DIMENSION") = false ->
  (forall rest, next_item rest -> read_item (it_spec t) (map Ok ps ++ rest) = Ok (Some st, rest)) ->
  delimited read_entity (mk_pair 0 (VStr (sp_type (it_spec t))) :: ps) (t, st).
Proof.
  intros Hf H1 H2 Hr rest Hn. unfold read_entity. cbn [map app read_entity_fuel p_code]. change (0 =? 0) with true. unfold assert_string. cbn [p_value bind].
  rewrite H1, H2, Hf, (Hr rest Hn). reflexivity.
Qed.
Lemma object_delimited s f ps o : assoc_str s object_readers = Some f -> seqb s (str "ENDSEC") || seqb s (str "ENDBLK") = false ->
  (forall rest, next_item rest -> f (map Ok ps ++ rest) = Ok (o, rest)) -> delimited read_object (mk_pair 0 (VStr s) :: ps) o.
Proof.
  intros Hf H1 Hr rest Hn. unfold read_object. cbn [map app read_object_fuel p_code]. change (0 =? 0) with true. unfold assert_string. cbn [p_value bind].
  rewrite H1, Hf, (Hr rest Hn). reflexivity.
Qed.
(** The items of a table. *)
Inductive reads_table (k : tkind) : list pair -> list titem -> Prop :=
| reads_tnil : reads_table k [] []
| reads_tcons ps st l xs : (forall rest, next_item rest -> read_item (it_spec (table_spec k)) (map Ok ps ++ rest) = Ok (Some st, rest)) ->
    reads_table k l xs -> reads_table k (mk_pair 0 (VStr (table_type k)) :: ps ++ l) (titem_of k st :: xs).
Lemma reads_table_next k l xs rest : reads_table k l xs -> next_item rest -> next_item (map Ok l ++ rest).
Proof. intros H Hr. destruct H; [exact Hr|]. cbn [map app]. eexists. eexists. split; reflexivity. Qed.
Lemma table_items_read k rest : forall l xs, reads_table k l xs -> forall f d, (length l < f)%nat ->
  read_table_fuel f k d (map Ok l ++ Ok (item "ENDTAB") :: rest) = Ok (fold_left (put_titem k) xs d, Ok (item "ENDTAB") :: rest).
Proof.
  assert (N : forall k, seqb (str "ENDTAB") (table_type k) = false) by (intros []; vm_compute; reflexivity).
  induction 1 as [|ps st l xs H Hr IH]; intros f d Hf; (destruct f as [|f]; [lia|]).
  - cbn [map app read_table_fuel p_code item]. change (0 =? 0) with true. unfold assert_string. cbn [p_value item bind]. rewrite N. reflexivity.
  - assert (Q : seqb (table_type k) (table_type k) = true) by (apply seqb_eq; reflexivity).
    cbn [map app read_table_fuel p_code]. change (0 =? 0) with true. unfold assert_string. cbn [p_value bind]. rewrite Q, map_app, <- app_assoc, H by (apply (reads_table_next _ _ _ _ Hr), next_of).
    cbn [bind]. rewrite IH; [reflexivity|]. cbn [length] in Hf. rewrite app_length in Hf. lia.
Qed.
Lemma table_lead k lead : (forall p, In p lead -> p_code p <> 0) -> forall f d it, (length lead + length it < f)%nat ->
  read_table_fuel f k d (map Ok lead ++ it) = read_table_fuel (f - length lead) k d it.
Proof.
  induction lead as [|p lead IH]; intros Hl f d it Hf; [cbn [map app length]; rewrite Nat.sub_0_r; reflexivity|]. destruct f as [|f]; [lia|].
  cbn [map app read_table_fuel length] in *. rewrite (proj2 (Z.eqb_neq (p_code p) 0) (Hl p (or_introl eq_refl))). rewrite IH; [reflexivity|intros q Hq; apply Hl; right; exact Hq|lia].
Qed.
Lemma table_name_of k : table_of_name (table_type k) = Some k.
Proof. destruct k; vm_compute; reflexivity. Qed.
Lemma table_reads k lead l xs d rest : (forall p, In p lead -> p_code p <> 0) -> reads_table k l xs ->
  read_table d (map Ok (mk_pair 2 (VStr (table_type k)) :: lead ++ l ++ [item "ENDTAB"]) ++ rest) = Ok (fold_left (put_titem k) xs d, rest).
Proof.
  intros Hl Hx. unfold read_table. cbn [map app p_code]. change (2 =? 2) with true. unfold assert_string. cbn [p_value bind]. rewrite table_name_of.
  rewrite !map_app, <- !app_assoc. cbn [map app]. rewrite table_lead; [|exact Hl|rewrite !app_length, !map_length; cbn [length]; lia].
  rewrite (table_items_read k rest l xs Hx).
  - cbn [bind]. rewrite expect_item. reflexivity.
  - rewrite !app_length, !map_length. cbn [length]. lia.
Qed.

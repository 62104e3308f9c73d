(** C58: files cut short. *)
From Verif Require Import Base TextModel CodePairModel CodePairProofs VersionModel StreamModel SpecModel EntityData HeaderModel DrawingModel FileModel SaveModel LoadSpec LoadProofs SkipProofs DxbModel.
Open Scope string_scope.
Open Scope list_scope.
Open Scope N_scope.
Set Default Goal Selector "!".
Local Notation item := LoadSpec.item.

(** * DXB *)
(** The same reader with more to read. *)
Definition more (q : bytes) (x : dxb) : dxb := mk_dxb (x_rest x ++ q) (x_int x) (x_layer x) (x_scale x) (x_color x) (x_line x) (x_p3 x) (x_p4 x) (x_off x).
Definition steady {A} (m : dxb -> res (A * dxb)) : Prop := forall q x a y, m x = Ok (a, y) -> m (more q x) = Ok (a, more q y).
Lemma read_le_more k q : forall bs v r, read_le k bs = Ok (v, r) -> read_le k (bs ++ q) = Ok (v, r ++ q).
Proof.
  induction k as [|k IH]; intros bs v r H; cbn [read_le] in *; [injection H as <- <-; reflexivity|]. destruct bs as [|b bs]; [discriminate H|]. cbn [app].
  destruct (read_le k bs) as [[v' r']|e] eqn:E; cbn [bind] in H; [|discriminate H]. rewrite (IH _ _ _ E). cbn [bind]. injection H as <- <-. reflexivity.
Qed.
Lemma read_string_more q : forall bs v r, read_string_binary bs = Ok (v, r) -> read_string_binary (bs ++ q) = Ok (v, r ++ q).
Proof.
  induction bs as [|b bs IH]; intros v r H; cbn [read_string_binary app] in *; [discriminate H|]. destruct (b =? 0); [injection H as <- <-; reflexivity|].
  destruct (read_string_binary bs) as [[v' r']|e] eqn:E; cbn [bind] in H; [|discriminate H]. rewrite (IH _ _ eq_refl). cbn [bind]. injection H as <- <-. reflexivity.
Qed.
Ltac steady_le k q := match goal with H : context [read_le k ?b] |- _ => destruct (read_le k b) as [[? ?]|?] eqn:E; cbn [bind] in H; [|discriminate H]; apply (read_le_more _ q) in E;
  cbn [more x_int x_rest]; rewrite E; cbn [bind]; injection H as <- <-; reflexivity end.
Lemma n_steady : steady read_n.
Proof. intros q x a y H. unfold read_n, read_i16, read_f32 in *. change (x_int (more q x)) with (x_int x). destruct (x_int x); [steady_le 2%nat q|steady_le 4%nat q]. Qed.
Lemma a_steady : steady read_a.
Proof. intros q x a y H. unfold read_a, read_i32, read_f32 in *. change (x_int (more q x)) with (x_int x). destruct (x_int x); steady_le 4%nat q. Qed.
Lemma u_steady : steady read_u.
Proof. intros q x a y H. unfold read_u, read_i32, read_f32 in *. change (x_int (more q x)) with (x_int x). destruct (x_int x); steady_le 4%nat q. Qed.
Lemma w_steady : steady read_w.
Proof. intros q x a y H. unfold read_w, read_i16 in *. steady_le 2%nat q. Qed.
Lemma s_steady : steady read_string.
Proof.
  intros q x a y H. unfold read_string in *. destruct (read_string_binary (x_rest x)) as [[s r]|e] eqn:E; cbn [bind] in H; [|discriminate H].
  apply (read_string_more q) in E. cbn [more x_rest]. rewrite E. cbn [bind]. injection H as <- <-. reflexivity.
Qed.
Lemma steady_bind {A B} (m : dxb -> res (A * dxb)) (k : A -> dxb -> res (B * dxb)) : steady m -> (forall a, steady (k a)) -> steady (fun x => let? (a, y) := m x in k a y).
Proof. intros Hm Hk q x b z H. cbv beta in *. destruct (m x) as [[a y]|e] eqn:E; cbn [bind] in H; [|discriminate H]. rewrite (Hm q _ _ _ E). cbn [bind]. exact (Hk a q _ _ _ H). Qed.
Lemma fields_steady fs : forall st, steady (read_fields fs st).
Proof.
  induction fs as [|[s|s|s] fs IH]; intros st; cbn [read_fields].
  - intros q x a y H. injection H as <- <-. reflexivity.
  - apply (steady_bind read_n); [apply n_steady|]. intros a. apply IH.
  - apply (steady_bind read_a); [apply a_steady|]. intros a. apply IH.
  - apply IH.
Qed.
Ltac steady_end := intros ? ? ? ? ? H; injection H as <- <-; reflexivity.
Lemma plain_steady t fs : steady (read_plain t fs).
Proof. unfold read_plain. apply (steady_bind (read_fields fs _)); [apply fields_steady|steady_end]. Qed.
Lemma line_steady : steady read_line_item.
Proof. unfold read_line_item. apply (steady_bind (read_plain ent_line line_fields)); [apply plain_steady|steady_end]. Qed.
Lemma extension_steady fs : steady (read_line_extension fs).
Proof.
  intros q x a y H. unfold read_line_extension in *. change (x_line (more q x)) with (x_line x). destruct (read_fields fs _ x) as [[st z]|e] eqn:E; cbn [bind] in H; [|discriminate H].
  rewrite (fields_steady _ _ q _ _ _ E). cbn [bind]. injection H as <- <-. reflexivity.
Qed.
Lemma polyline_steady : steady read_polyline.
Proof. unfold read_polyline. apply (steady_bind read_w); [apply w_steady|steady_end]. Qed.
Lemma trace_steady : steady read_trace.
Proof. unfold read_trace. apply (steady_bind (read_plain ent_trace quad_fields)); [apply plain_steady|steady_end]. Qed.
Lemma trace_extension_steady : steady read_trace_extension.
Proof.
  intros q x a y H. unfold read_trace_extension in *. cbv zeta in *. change (x_p4 (more q x)) with (x_p4 x). change (x_p3 (more q x)) with (x_p3 x).
  destruct (read_fields _ _ x) as [[st z]|e] eqn:E; cbn [bind] in H; [|discriminate H].
  rewrite (fields_steady _ _ q _ _ _ E). cbn [bind]. injection H as <- <-. reflexivity.
Qed.
(** What has been accepted does not depend on what comes after it. *)
Lemma items_steady q : forall f f' base es x v, (f <= f')%nat -> read_items f base es x = Ok v -> read_items f' base es (more q x) = Ok v.
Proof.
  induction f as [|f IH]; intros f' base es x v L H; [discriminate H|]. destruct f' as [|f']; [lia|]. assert (L' : (f <= f')%nat) by lia. clear L. cbn [read_items] in *.
  change (x_rest (more q x)) with (x_rest x ++ q). destruct (x_rest x) as [|b r] eqn:R; [discriminate H|]. cbn [app]. change (x_off (more q x)) with (x_off x).
  destruct (item_of_u8 b) as [i|]; [|discriminate H]. cbv zeta in *.
  change (moved (r ++ q) 1 (more q x)) with (more q (moved r 1 x)). set (y := moved r 1 x) in *. clearbody y. clear R.
  assert (B : forall A (m : dxb -> res (A * dxb)) (k k' : A -> dxb -> res (option (N * N) * list raw)), steady m -> (forall a z, k a z = Ok v -> k' a (more q z) = Ok v) ->
    (let? (a, z) := m y in k a z) = Ok v -> (let? (a, z) := m (more q y) in k' a z) = Ok v).
  { intros A m k k' Hm K E. destruct (m y) as [[a z]|e] eqn:M; cbn [bind] in E; [|discriminate E]. rewrite (Hm q _ _ _ M). cbn [bind]. apply K, E. }
  assert (P : forall m : dxb -> res (raw * dxb), steady m -> (let? (es, x) := push es (m y) in read_items f base es x) = Ok v -> (let? (es, x) := push es (m (more q y)) in read_items f' base es x) = Ok v).
  { intros m Hm E. unfold push in *. destruct (m y) as [[a z]|e] eqn:M; cbn [bind] in *; [|discriminate E]. rewrite (Hm q _ _ _ M). cbn [bind]. exact (IH _ _ _ _ _ L' E). }
  assert (C : forall g off es (k k' : list raw -> res (option (N * N) * list raw)), (forall l, k l = Ok v -> k' l = Ok v) -> (let? l := change_last g off es in k l) = Ok v -> (let? l := change_last g off es in k' l) = Ok v).
  { intros g off es0 k k' K E. destruct (change_last g off es0); cbn [bind] in *; [apply K, E|discriminate E]. }
  destruct i; try (revert H; first
    [apply (P (read_plain _ _)), plain_steady|apply (P read_line_item), line_steady|apply (P (read_line_extension _)), extension_steady|apply (P read_polyline), polyline_steady
    |apply (P read_trace), trace_steady|apply (P read_trace_extension), trace_extension_steady]).
  - exact H.
  - revert H. apply (P (fun x => Ok (wrap_common ent_seqend (default_of (SpecSpec.it_spec ent_seqend)) x, x))). intros q' x' a' y' H'. injection H' as <- <-. reflexivity.
  - unfold read_f, read_f64 in *. destruct (read_le 8 (x_rest y)) as [[d r']|e] eqn:E.
    + apply (read_le_more _ q) in E. change (x_rest y ++ q) with (x_rest (more q y)) in E. rewrite E. exact (IH f' base es (set_scale d (moved r' 8 y)) v L' H).
    + exfalso. clear - H. destruct f as [|f]; discriminate H.
  - revert H. apply (B _ read_string _ _ s_steady). intros a z. exact (IH f' base es (set_layer a z) v L').
  - revert H. apply (B _ read_n (fun bx x => let? (by_, x) := read_n x in match base, es with None, [] => read_items f (Some (bx, by_)) es x | _, _ => Err InvalidBinaryFile end)
      (fun bx x => let? (by_, x) := read_n x in match base, es with None, [] => read_items f' (Some (bx, by_)) es x | _, _ => Err InvalidBinaryFile end) n_steady).
    intros a z E. destruct (read_n z) as [[a' z']|e] eqn:M; cbn [bind] in E; [|discriminate E]. rewrite (n_steady q _ _ _ M). cbn [bind].
    destruct base, es; try discriminate E. exact (IH _ _ _ _ _ L' E).
  - revert H. apply (B _ read_u _ _ u_steady). intros a z. change (x_off (more q z)) with (x_off z). apply C. intros l. exact (IH f' base l z v L').
  - revert H. apply (B _ read_n (fun s x => let? (e, x) := read_n x in let? es := change_last (fun st => upd (upd st "starting_width" (FF64 s)) "ending_width" (FF64 e)) (x_off x) es in read_items f base es x)
      (fun s x => let? (e, x) := read_n x in let? es := change_last (fun st => upd (upd st "starting_width" (FF64 s)) "ending_width" (FF64 e)) (x_off x) es in read_items f' base es x) n_steady).
    intros a z E. destruct (read_n z) as [[a' z']|e] eqn:M; cbn [bind] in E; [|discriminate E]. rewrite (n_steady q _ _ _ M). cbn [bind].
    revert E. change (x_off (more q z')) with (x_off z'). apply C. intros l. exact (IH f' base l z' v L').
  - revert H. apply (B _ read_w _ _ w_steady). intros a z. exact (IH f' base es (set_int _ z) v L').
  - revert H. apply (B _ read_w _ _ w_steady). intros a z. exact (IH f' base es (set_color _ z) v L').
Qed.
Lemma dxb_steady env p q d : load_dxb env p = Ok d -> load_dxb env (p ++ q) = Ok d.
Proof.
  unfold load_dxb. destruct p as [|a p]; [discriminate|]. cbn [app]. destruct (a =? 26); [|discriminate]. destruct p as [|b p]; [discriminate|]. cbn [app]. destruct (b =? 0); [|discriminate].
  intros H. destruct (read_items _ None [] (moved p 2 (new_dxb p))) as [v|e] eqn:E; cbn [bind] in H; [|discriminate H].
  assert (L : (S (length p) <= S (length (p ++ q)))%nat) by (rewrite app_length; lia).
  pose proof (items_steady q _ _ _ _ _ _ L E) as E'. change (more q (moved p 2 (new_dxb p))) with (moved (p ++ q) 2 (new_dxb (p ++ q))) in E'. rewrite E'. exact H.
Qed.
Lemma read_line_loop_more q allow : forall bs skip i l r, read_line_loop allow skip i bs = (l, r) -> r <> [] -> read_line_loop allow skip i (bs ++ q) = (l, r ++ q).
Proof.
  induction bs as [|b bs IH]; intros skip i l r H Hr; cbn [read_line_loop app] in *; [injection H as _ <-; contradiction Hr; reflexivity|].
  destruct ((i =? 0) && (b =? 0xEF) && allow); [exact (IH _ _ _ _ H Hr)|]. destruct (_ && skip); [exact (IH _ _ _ _ H Hr)|].
  destruct (b =? 10); [injection H as <- <-; reflexivity|]. destruct (read_line_loop allow skip (i + 1) bs) as [l' r'] eqn:E. injection H as <- <-. rewrite (IH _ _ _ _ E Hr). reflexivity.
Qed.
Lemma dxb_cut env enc p q r d : after_dxb_line enc p = Some r -> load_bytes env enc p = Ok d -> load_bytes env enc (p ++ q) = Ok d.
Proof.
  intros A H. unfold load_bytes in H. rewrite A in H. assert (Hr : r <> []) by (intros ->; discriminate H).
  unfold load_bytes. assert (A' : after_dxb_line enc (p ++ q) = Some (r ++ q)).
  { clear H. unfold after_dxb_line, read_line in *. destruct (read_line_loop true false 0 p) as [l r'] eqn:E. destruct (decode enc l) as [s|] eqn:D; [|discriminate A]. destruct (seqb _ _) eqn:Q; [|discriminate A].
    injection A as ->. rewrite (read_line_loop_more q _ _ _ _ _ _ E Hr). rewrite D, Q. reflexivity. }
  rewrite A'. apply dxb_steady, H.
Qed.

(** * DXF *)
Lemma is_zero_item s p : is_zero s p = true -> p = item s.
Proof.
  unfold is_zero. intros H. apply andb_true_iff in H as [H1 H2]. destruct p as [c v]. cbn [p_code p_value] in *. destruct v; try discriminate H2. apply seqb_eq in H2 as ->. apply Z.eqb_eq in H1 as ->. reflexivity.
Qed.
Lemma complete_tail pre p r : complete (p :: r) -> complete (pre ++ p :: r).
Proof.
  intros [H|[H|[q H]]]; [discriminate H|right; left; apply in_or_app; right; exact H|]. right. right. exists (pre ++ q). rewrite H, app_assoc. reflexivity.
Qed.
(** A section that has been closed. *)
Lemma complete_section r r3 : expect "ENDSEC" r = Ok r3 -> complete r3 -> complete r.
Proof.
  destruct r as [|[p|e] r]; cbn [expect]; try discriminate. destruct (is_zero "ENDSEC" p) eqn:Z; [|discriminate]. intros X. injection X as <-. apply is_zero_item in Z as ->.
  intros H. destruct r as [|x r]; [right; right; exists []; reflexivity|]. exact (complete_tail [Ok (item "ENDSEC")] x r H).
Qed.
Section Cut.
  Variables (sw : feed -> feed) (env : store).
  Definition completes (it : feed) : Prop := complete it \/ exists y, tail_of y it /\ complete (sw y).
  Lemma completes_tail r it : tail_of r it -> r <> [] -> completes r -> completes it.
  Proof.
    intros T Hr [H|[y [Ty H]]].
    - left. destruct T as [pre ->]. destruct r as [|x r]; [contradiction Hr; reflexivity|]. apply complete_tail, H.
    - right. exists y. split; [exact (tail_trans _ _ _ Ty T)|exact H].
  Qed.
  Lemma completes_section r r3 : expect "ENDSEC" r = Ok r3 -> completes r3 -> completes r.
  Proof.
    intros X [H|[y [Ty H]]]; [left; exact (complete_section _ _ X H)|right]. exists y. split; [|exact H].
    destruct (expect_tail anyE any_ok _ _ _ X) as [_ T]. exact (tail_trans _ _ _ Ty T).
  Qed.

  Lemma sections_complete again : forall f u d it x, (u = true \/ (kept_good anyE sw it /\ forall d it x, good anyE it -> again d it = Ok x -> complete it)) -> good anyE it ->
    sections_with sw env again f u d it = Ok x -> if u then complete it else completes it.
  Proof.
    induction f as [|f IH]; intros u d it x Hsw Hg; cbn [sections_with]; [discriminate|]. destruct it as [|[p|e] it]; [intros _; destruct u; [|left]; left; reflexivity| |discriminate].
    destruct (p_code p =? 0)%Z eqn:Pc; [|discriminate]. destruct (assert_string p) as [s|e] eqn:As; cbn [bind]; [|discriminate].
    destruct (seqb s (str "EOF")) eqn:Q1.
    { intros _. assert (Z : p = item "EOF").
      { apply is_zero_item. unfold is_zero. rewrite Pc. unfold assert_string in As. destruct (p_value p); try discriminate As. injection As as ->. exact Q1. }
      rewrite Z. destruct u; [|left]; right; left; left; reflexivity. }
    destruct (seqb s (str "SECTION")); [|discriminate]. destruct it as [|[q|e] it]; [discriminate| |discriminate].
    destruct (if (p_code q =? 2)%Z then match p_value q with VStr name => Some name | _ => None end else None) as [name|]; [|discriminate].
    assert (T : tail_of it (Ok p :: Ok q :: it)) by (apply tail_cons, tail_cons, tail_refl).
    pose proof (good_tail _ _ _ T Hg) as Hg'. assert (Hsw' : u = true \/ kept_good anyE sw it) by (destruct Hsw as [H|[H _]]; [left; exact H|right; exact (kept_tail _ _ _ _ T H)]).
    pose proof (section_goes anyE any_ok sw env name u d it Hsw' Hg' (or_introl Logic.I)) as S. pose proof (section_left sw env name u d it Hsw' Hg') as S'.
    destruct (read_section sw env name u d it) as [[[d' u'] r]|e]; cbn [bind fst snd]; [|discriminate]. destruct S as [Su S], S' as (R1 & R3 & _ & _).
    destruct (expect "ENDSEC" r) as [r3|e] eqn:Ex; cbn [bind]; [|discriminate]. destruct (expect_tail anyE any_ok _ _ _ Ex) as [L T3].
    pose proof (good_tail _ _ _ T3 R1) as R4. assert (Hr : r <> []) by (intros ->; cbn in L; lia). intros H.
    destruct u.
    - rewrite (Su eq_refl) in *. cbn [negb andb] in H. apply IH in H; [|left; reflexivity|exact R4]. destruct S as [S|[X _]]; [|discriminate X].
      apply (complete_section _ _ Ex) in H. destruct (tail_trans _ _ _ S T) as [pre ->]. destruct r as [|y r]; [contradiction Hr; reflexivity|]. apply complete_tail, H.
    - destruct Hsw as [Hsw|[Hsw Hag]]; [discriminate Hsw|]. destruct u'; cbn [negb andb] in H.
      + apply (Hag _ _ _ R4) in H. apply (complete_section _ _ Ex) in H. destruct S as [S|[_ [_ [y [Ty Sy]]]]].
        * apply (completes_tail r); [exact (tail_trans _ _ _ S T)|exact Hr|left; exact H].
        * right. exists y. split; [exact (tail_trans _ _ _ Ty T)|]. destruct Sy as [pre ->]. destruct r as [|z r]; [contradiction Hr; reflexivity|]. apply complete_tail, H.
      + destruct S as [S|[_ [X _]]]; [|discriminate X]. apply IH in H; [|right; split; [|exact Hag]|exact R4].
        2:{ destruct R3 as [X|R3]; [discriminate X|]. exact (kept_tail _ _ _ _ T3 R3). }
        apply (completes_tail r); [exact (tail_trans _ _ _ S T)|exact Hr|exact (completes_section _ _ Ex H)].
  Qed.
  Lemma load_complete it d : kept_good anyE sw it -> good anyE it -> load sw env it = Ok d -> completes it.
  Proof.
    intros K G H. unfold load, load_from in H. destruct (read_sections _ _ _ _ _ _) as [x|e] eqn:E; cbn [bind] in H; [|discriminate H]. clear H. unfold read_sections in E.
    apply sections_complete in E; [exact E|right; split; [exact K|]|exact G]. intros d0 it0 x0 G0 H. apply sections_complete in H; [exact H|left; reflexivity|exact G0].
  Qed.
End Cut.

(** What follows the end mark is ignored. *)
From Verif Require Import Base TextModel TextProofs CodePairModel CodePairProofs CodePairSpec ReaderProofs LineProofs VersionModel StreamModel SpecModel SpecSpec HeaderModel HeaderData DrawingModel FileModel SaveModel
  LoadProofs BytesProofs LocalProofs CommentSpec CommentProofs TrailerSpec SaveSpec BinaryProofs SaveProofs.
From Verif Require DxbModel.
Open Scope string_scope.
Open Scope list_scope.
Open Scope Z_scope.
Set Default Goal Selector "!".

(** An input that does not end right behind a section. *)
Definition ends (l : feed) : Prop := exists pre x, l = pre ++ [x] /\ forall p, x = Ok p -> is_zero "ENDSEC" p = false.
Lemma ends_ne l : ends l -> l <> [].
Proof. intros (pre & x & -> & _). destruct pre; discriminate. Qed.
Lemma ends_tail l s : ends l -> tail_of s l -> s <> [] -> ends s.
Proof.
  intros (pre & x & E & H) [a T] N. rewrite T in E. destruct (exists_last N) as (s' & y & ->). rewrite app_assoc in E. apply app_inj_tail in E as [_ ->]. exists s', x. split; [reflexivity|exact H].
Qed.
Lemma ends_expect l s r : ends l -> tail_of s l -> expect "ENDSEC" s = Ok r -> ends r.
Proof.
  intros E T X. destruct s as [|[p|e] s]; cbn [expect] in X; [discriminate X| |discriminate X]. destruct (is_zero "ENDSEC" p) eqn:Z; [|discriminate X]. injection X as <-.
  pose proof (ends_tail _ _ E T ltac:(discriminate)) as E'. apply (ends_tail _ s E'); [apply tail_cons, tail_refl|]. intros ->. destruct E' as (pre & x & A & H).
  destruct pre as [|? pre]; [|destruct pre; discriminate A]. injection A as <-. specialize (H p eq_refl). congruence.
Qed.
(** With something behind it. *)
Definition longer (l l' : feed) : Prop := l' = l \/ (ends l /\ exists j, l' = l ++ j).
(** A local reader that leaves something leaves the same of a longer input. *)
Lemma local_longer {A} (f f' : feed -> res (A * feed)) q j x r : local f f' -> f q = Ok (x, r) -> r <> [] -> tail_of r q /\ f' (q ++ j) = Ok (x, r ++ j).
Proof.
  intros F H N. split; [exact (local_tail f f' F _ _ _ H)|]. destruct (F q [] j ltac:(cbn [length]; lia)) as [(y & s & T & E & E')|[(e & E & _)|E]]; rewrite app_nil_r in E; rewrite H in E.
  - injection E as -> ->. rewrite app_nil_r in *. exact E'.
  - discriminate E.
  - cbn [touched] in E. destruct E as [_ [pre E]]. destruct pre; [|discriminate E]. cbn [app] in E. subst r. contradiction N. reflexivity.
Qed.
Definition inner sw env again f u d (r : feed) : res (drawing * feed) :=
  match r with
  | [] => Err UnexpectedEndOfInput
  | Err e :: _ => Err e
  | Ok q :: r1 =>
      match (if p_code q =? 2 then match p_value q with VStr name => Some name | _ => None end else None) with
      | Some name =>
          let? (x, r2) := read_section sw env name u d r1 in
          let? r3 := expect "ENDSEC" r2 in
          if negb u && snd x then again (fst x) r3 else sections_with sw env again f (snd x) (fst x) r3
      | None => Err (UnexpectedCodePair (p_code q) 0)
      end
  end.
Lemma expect_longer s q r j : expect s q = Ok r -> expect s (q ++ j) = Ok (r ++ j).
Proof. destruct q as [|[p|e] q]; cbn [expect app]; [discriminate| |discriminate]. destruct (is_zero s p); [|discriminate]. intros H. injection H as <-. reflexivity. Qed.
(** The sections once the input is read as UTF-8. *)
Lemma sections_true sw sw' env again again' : forall f f' d q d' r j, (f <= f')%nat -> ends q -> sections_with sw env again f true d q = Ok (d', r) ->
  r <> [] /\ sections_with sw' env again' f' true d (q ++ j) = Ok (d', r ++ j).
Proof.
  induction f as [|f IH]; intros f' d q d' r j Lf E H; [discriminate H|]. destruct f' as [|f']; [lia|]. destruct q as [|[p|e] q]; [contradiction (ends_ne _ E eq_refl)| |discriminate H].
  cbn [sections_with app] in *. destruct (p_code p =? 0); [|discriminate H]. destruct (assert_string p) as [s|e]; cbn [bind] in *; [|discriminate H].
  destruct (seqb s (str "EOF")); [injection H as <- <-; split; [discriminate|reflexivity]|]. destruct (seqb s (str "SECTION")); [|discriminate H].
  destruct q as [|[p2|e] q]; [discriminate H| |discriminate H]. cbn [app]. destruct (if p_code p2 =? 2 then _ else None) as [name|]; [|discriminate H].
  destruct (read_section sw env name true d q) as [[x r2]|e] eqn:S1; cbn [bind] in H; [|discriminate H]. destruct (expect "ENDSEC" r2) as [r3|e] eqn:S2; cbn [bind] in H; [|discriminate H].
  destruct (local_longer _ _ q j x r2 (section_local sw sw' env name d) S1) as [T S1']; [intros ->; discriminate S2|]. rewrite S1'. cbn [bind]. rewrite (expect_longer _ _ _ j S2). cbn [bind negb andb] in *.
  rewrite (section_bool _ _ _ _ _ _ _ _ S1 (or_intror eq_refl)) in *. apply IH; [lia| |exact H]. apply (ends_expect (Ok p :: Ok p2 :: q) r2 r3 E); [apply tail_cons, tail_cons, T|exact S2].
Qed.
(** The header section before that: the rest comes from the input or from its other decoding. *)
Lemma header_longer (sw sw' : feed -> feed) j j' : forall q cur h x r,
  (forall s, s <> [] -> tail_of s q -> longer (sw s) (sw' (s ++ j))) -> sw [] = [] -> r <> [] -> j' = j ->
  header_loop header_spec (Some (fun h r => header_loop header_spec None (Some (str "$ACADVER")) h (sw r))) cur h q = Ok (x, r) ->
  (snd x = false /\ tail_of r q /\ header_loop header_spec (Some (fun h r => header_loop header_spec None (Some (str "$ACADVER")) h (sw' r))) cur h (q ++ j) = Ok (x, r ++ j)) \/
  (snd x = true /\ exists y j2, tail_of r y /\ longer y (y ++ j2) /\ header_loop header_spec (Some (fun h r => header_loop header_spec None (Some (str "$ACADVER")) h (sw' r))) cur h (q ++ j) = Ok (x, r ++ j2)).
Proof.
  induction q as [|[p|e] q IH]; intros cur h x r W W0 N J H; cbn [header_loop app] in *; [injection H as <- <-; contradiction N; reflexivity| |discriminate H].
  assert (W' : forall s, s <> [] -> tail_of s q -> longer (sw s) (sw' (s ++ j))) by (intros s Ns T; apply W; [exact Ns|apply tail_cons, T]).
  assert (G : forall cur' h', header_loop header_spec (Some (fun h r => header_loop header_spec None (Some (str "$ACADVER")) h (sw r))) cur' h' q = Ok (x, r) ->
    (snd x = false /\ tail_of r (Ok p :: q) /\ header_loop header_spec (Some (fun h r => header_loop header_spec None (Some (str "$ACADVER")) h (sw' r))) cur' h' (q ++ j) = Ok (x, r ++ j)) \/
    (snd x = true /\ exists y j2, tail_of r y /\ longer y (y ++ j2) /\ header_loop header_spec (Some (fun h r => header_loop header_spec None (Some (str "$ACADVER")) h (sw' r))) cur' h' (q ++ j) = Ok (x, r ++ j2))).
  { intros cur' h' H'. destruct (IH cur' h' x r W' W0 N J H') as [(U & T & Q)|Q]; [left; split; [exact U|]; split; [apply tail_cons, T|exact Q]|right; exact Q]. }
  destruct (p_code p =? 0); [injection H as <- <-; left; split; [reflexivity|]; split; [apply tail_refl|reflexivity]|].
  destruct (p_code p =? 9); [destruct (assert_string p) as [n|]; cbn [bind] in *; [apply G, H|discriminate H]|]. destruct cur as [n|]; [|discriminate H].
  destruct (set_header_value header_spec n p h) as [h'|e]; cbn [bind] in *; [|discriminate H]. destruct (seqb n (str "$ACADVER") && version_leb R2007 (version_of (h' "version"))); [|apply G, H].
  right. split; [exact (header_none_true _ _ _ _ _ H)|]. destruct q as [|a q]; [rewrite W0 in H; cbn [header_loop] in H; injection H as <- <-; contradiction N; reflexivity|].
  destruct (W' (a :: q) ltac:(discriminate) (tail_refl _)) as [E|[E [j2 E2]]].
  - rewrite E. exists (sw (a :: q)), []. rewrite !app_nil_r. split; [exact (local_tail _ _ (header_none_local _ _) _ _ _ H)|]. split; [left; reflexivity|exact H].
  - rewrite E2. exists (sw (a :: q)), j2. destruct (local_longer _ _ (sw (a :: q)) j2 x r (header_none_local _ _) H N) as [T Q]. split; [exact T|]. split; [right; split; [exact E|eexists; reflexivity]|exact Q].
Qed.
Lemma section_true_eq sw sw' env name d it : read_section sw env name true d it = read_section sw' env name true d it.
Proof. reflexivity. Qed.
Lemma sections_true_eq sw sw' env again again' : forall f d it, sections_with sw env again f true d it = sections_with sw' env again' f true d it.
Proof.
  induction f as [|f IH]; intros d it; [reflexivity|]. cbn [sections_with]. destruct it as [|[p|e] it]; [reflexivity| |reflexivity]. destruct (p_code p =? 0); [|reflexivity].
  destruct (assert_string p) as [s|e]; cbn [bind]; [|reflexivity]. destruct (seqb s (str "EOF")); [reflexivity|]. destruct (seqb s (str "SECTION")); [|reflexivity]. destruct it as [|[p2|e] it]; [reflexivity| |reflexivity].
  destruct (if p_code p2 =? 2 then _ else None) as [name|]; [|reflexivity]. rewrite (section_true_eq sw sw'). destruct (read_section sw' env name true d it) as [[x r2]|e] eqn:E; cbn [bind]; [|reflexivity].
  destruct (expect "ENDSEC" r2) as [r3|e]; cbn [bind negb andb]; [|reflexivity]. rewrite (section_bool _ _ _ _ _ _ _ _ E (or_intror eq_refl)). apply IH.
Qed.
(** Either nothing follows, or the input is known not to end behind a section. *)
Definition follows (q j : feed) : Prop := j = [] \/ ends q.
Definition onward sw env (d : drawing) (it : feed) : res (drawing * feed) := sections_with sw env (fun _ _ => Err OutOfFuel) (S (length it)) true d it.
Lemma onward_longer sw sw' env d q d' r j : follows q j -> onward sw env d q = Ok (d', r) -> (j = [] \/ r <> []) /\ onward sw' env d (q ++ j) = Ok (d', r ++ j).
Proof.
  unfold onward. intros [->|E] H.
  - split; [left; reflexivity|]. rewrite !app_nil_r. rewrite (sections_true_eq sw' sw env _ (fun _ _ => Err OutOfFuel)). exact H.
  - destruct (sections_true sw sw' env (fun _ _ => Err OutOfFuel) (fun _ _ => Err OutOfFuel) (S (length q)) (S (length (q ++ j))) d q d' r j) as [N Q]; [rewrite app_length; lia|exact E|exact H|]. split; [right; exact N|exact Q].
Qed.
Lemma follows_expect q s r j : follows q j -> tail_of s q -> expect "ENDSEC" s = Ok r -> follows r j.
Proof. intros [->|E] T X; [left; reflexivity|right; exact (ends_expect _ _ _ E T X)]. Qed.
Lemma sections_longer sw sw' env : sw [] = [] -> forall f f' d q d' r j, (f <= f')%nat -> (j = [] -> f' = f) -> follows q j ->
  (forall s, s <> [] -> tail_of s q -> exists j2, sw' (s ++ j) = sw s ++ j2 /\ follows (sw s) j2) -> sections_with sw env (onward sw env) f false d q = Ok (d', r) ->
  exists j', (j' = [] \/ r <> []) /\ sections_with sw' env (onward sw' env) f' false d (q ++ j) = Ok (d', r ++ j').
Proof.
  intros W0. induction f as [|f IH]; intros f' d q d' r j Lf Jf F W H; [discriminate H|]. destruct f' as [|f']; [lia|]. destruct q as [|[p|e] q]; [| |discriminate H].
  { destruct F as [->|E]; [|contradiction (ends_ne _ E eq_refl)]. cbn in H. injection H as <- <-. exists []. split; [left; reflexivity|reflexivity]. }
  cbn [sections_with app] in *. destruct (p_code p =? 0); [|discriminate H]. destruct (assert_string p) as [s|e]; cbn [bind] in *; [|discriminate H].
  destruct (seqb s (str "EOF")); [injection H as <- <-; exists j; split; [right; discriminate|reflexivity]|]. destruct (seqb s (str "SECTION")); [|discriminate H].
  destruct q as [|[p2|e] q]; [discriminate H| |discriminate H]. cbn [app]. destruct (if p_code p2 =? 2 then _ else None) as [name|]; [|discriminate H].
  destruct (read_section sw env name false d q) as [[x r2]|e] eqn:S1; cbn [bind] in H; [|discriminate H]. destruct (expect "ENDSEC" r2) as [r3|e] eqn:S2; cbn [bind] in H; [|discriminate H].
  assert (N2 : r2 <> []) by (intros ->; discriminate S2). cbn [negb andb] in *.
  assert (K : snd x = false -> tail_of r2 q -> read_section sw' env name false d (q ++ j) = Ok (x, r2 ++ j) ->
    exists j', (j' = [] \/ r <> []) /\ (let? (x0, r0) := read_section sw' env name false d (q ++ j) in let? r1 := expect "ENDSEC" r0 in
      if snd x0 then onward sw' env (fst x0) r1 else sections_with sw' env (onward sw' env) f' (snd x0) (fst x0) r1) = Ok (d', r ++ j')).
  { intros U T S1'. rewrite S1'. cbn [bind]. rewrite (expect_longer _ _ _ j S2). cbn [bind]. rewrite U in *. apply IH; [lia|intros J; specialize (Jf J); lia| | |exact H].
    - apply (follows_expect (Ok p :: Ok p2 :: q) r2 r3 j F); [apply tail_cons, tail_cons, T|exact S2].
    - intros u Nu Tu. apply W; [exact Nu|]. apply tail_cons, tail_cons. apply (tail_trans _ r2 _); [|exact T]. apply (tail_trans _ r3 _ Tu).
      destruct r2 as [|[a|a] r2]; cbn [expect] in S2; try discriminate S2. destruct (is_zero "ENDSEC" a); [|discriminate S2]. injection S2 as ->. apply tail_cons, tail_refl. }
  destruct (seqb name (str "HEADER")) eqn:HN.
  - unfold read_section in S1. rewrite HN in S1. unfold read_header in S1. destruct (header_loop _ _ _ _ q) as [[y r2']|e] eqn:Hl; cbn [bind] in S1; [|discriminate S1]. injection S1 as <- <-. cbn [fst snd] in *.
    destruct (header_longer sw sw' j j q None (header_default header_spec env) y r2') as [(U & T & Q)|(U & z & j2 & T & Z & Q)].
    + intros u Nu Tu. destruct (W u Nu ltac:(apply tail_cons, tail_cons, Tu)) as (j2 & -> & [->|E]); [left; apply app_nil_r|right; split; [exact E|exists j2; reflexivity]].
    + exact W0.
    + exact N2.
    + reflexivity.
    + exact Hl.
    + apply K; [exact U|exact T|]. unfold read_section, read_header. rewrite HN, Q. reflexivity.
    + rewrite U in H. assert (F2 : follows z j2) by (destruct Z as [Z|[Z _]]; [left; rewrite <- (app_nil_r z) in Z at 2; apply app_inv_head in Z; exact Z|right; exact Z]).
      destruct (onward_longer sw sw' env _ r3 d' r j2 (follows_expect z r2' r3 j2 F2 T S2) H) as [A B]. exists j2. split; [exact A|].
      unfold read_section, read_header. rewrite HN, Q. cbn [bind snd fst]. rewrite (expect_longer _ _ _ j2 S2). cbn [bind]. rewrite U. exact B.
  - pose proof (section_bool _ _ _ _ _ _ _ _ S1 (or_introl HN)) as U. destruct (local_longer _ _ q j x r2 (section_plain sw sw' env name d HN) S1 N2) as [T S1']. exact (K U T S1').
Qed.
Theorem load_longer sw sw' env q j d : sw [] = [] -> follows q j -> (forall s, s <> [] -> tail_of s q -> exists j2, sw' (s ++ j) = sw s ++ j2 /\ follows (sw s) j2) ->
  load sw env q = Ok d -> load sw' env (q ++ j) = Ok d.
Proof.
  intros W0 F W H. unfold load, load_from in *. change (read_sections ?s env) with (sections_with s env (onward s env)) in *.
  destruct (sections_with sw env (onward sw env) (S (length q)) false (start env) q) as [[d' r]|e] eqn:E; cbn [bind] in H; [|discriminate H].
  destruct (sections_longer sw sw' env W0 (S (length q)) (S (length (q ++ j))) (start env) q d' r j) as (j' & A & B); [rewrite app_length; lia|intros ->; rewrite app_nil_r; reflexivity|exact F|exact W|exact E|].
  rewrite B. cbn [bind]. destruct r as [|[p|e] r]; cbn [app] in *; [|exact H|discriminate H]. destruct A as [->|A]; [exact H|contradiction A; reflexivity].
Qed.

(** * Text files *)
Open Scope N_scope.
Definition lb (ls : list bytes) : bytes := flat_map (fun l => l ++ [10]) ls.
Lemma lb_cons l ls : lb (l :: ls) = l ++ 10 :: lb ls.
Proof. unfold lb. cbn [flat_map]. rewrite <- app_assoc. reflexivity. Qed.
Lemma lb_app a b : lb (a ++ b) = lb a ++ lb b.
Proof. unfold lb. apply flat_map_app. Qed.
Lemma whole_lines bs : bs = [] \/ last bs 0 = 10 -> exists ls, bs = lb ls /\ Forall one_line ls.
Proof.
  intros H. assert (G : exists ls l, bs = lb ls ++ l /\ Forall one_line ls /\ one_line l).
  { clear H. induction bs as [|b bs (ls & l & -> & F & O)]; [exists [], []; split; [reflexivity|]; split; [constructor|intros []]|]. destruct (N.eq_dec b 10) as [->|N].
    - exists ([] :: ls), l. split; [reflexivity|]. split; [constructor; [intros []|exact F]|exact O].
    - destruct ls as [|x ls].
      + exists [], (b :: l). split; [reflexivity|]. split; [constructor|]. intros [X|X]; [congruence|exact (O X)].
      + inversion F as [|? ? Fx Fs]; subst. exists ((b :: x) :: ls), l. split; [reflexivity|]. split; [|exact O]. constructor; [|exact Fs]. intros [X|X]; [congruence|exact (Fx X)]. }
  destruct G as (ls & l & E & F & O). exists ls. split; [|exact F]. destruct l as [|b l]; [rewrite app_nil_r in E; exact E|]. exfalso. destruct (@exists_last _ (b :: l) ltac:(discriminate)) as (l' & x & X).
  destruct H as [->|H]; [destruct (lb ls); discriminate E|]. rewrite E, X, app_assoc, last_last in H. subst x. apply O. rewrite X. apply in_or_app. right. left. reflexivity.
Qed.

(** The last two lines say 0/EOF. *)
Definition end_lines (z e : bytes) : Prop := one_line z /\ one_line e /\
  (forall enc, exists s, line_text enc (without_mark z) = Some s /\ parse_i32 s 0 = Ok 0%Z) /\ (forall enc, line_text enc e = Some (str "EOF") /\ line_text enc (without_mark e) = Some (str "EOF")).
Section Text.
  Context (z e junk : bytes) (Z : end_lines z e).
  (** The readers of the file and of the longer one at the same place; the first line of a file has been read already. *)
  Definition shape (f : option rstring) (ls : list bytes) : Prop :=
    (exists pre, ls = pre ++ [z; e]) \/ (ls = [e] /\ match f with Some s => parse_i32 s 0 = Ok 0%Z | None => True end) \/ (ls = [] /\ f = None).
  Definition both (ra rb : reader) : Prop := exists ls enc f o, Forall one_line ls /\ shape f ls /\
    ra = CodePairModel.RText (mk_text (lb ls) enc f o) /\ rb = CodePairModel.RText (mk_text (lb ls ++ junk) enc f o).
  Definition done (rd : reader) : Prop := exists enc o, rd = CodePairModel.RText (mk_text [] enc None o).
  Definition not_section (x : res (pair * N)) : Prop := match x with Ok (p, _) => p = mk_pair 0 (VStr (str "EOF")) | Err _ => True end.
  Lemma read_one allow enc l ls w : one_line l -> read_line allow enc (lb (l :: ls) ++ w) = (res_of_option (line_text enc (if allow then without_mark l else l)), lb ls ++ w).
  Proof. intros N. rewrite lb_cons, <- app_assoc. cbn [app]. apply (read_line_exact allow enc l (10 :: lb ls ++ w) N). right. eexists. reflexivity. Qed.
  Lemma read_one0 allow enc l ls : one_line l -> read_line allow enc (lb (l :: ls)) = (res_of_option (line_text enc (if allow then without_mark l else l)), lb ls).
  Proof. intros N. pose proof (read_one allow enc l ls [] N) as R. rewrite !app_nil_r in R. exact R. Qed.
  (** After the code line, which leaves [ls]. *)
  Lemma pair_both enc o ls s : Forall one_line ls -> ls <> [] -> (exists pre, ls = pre ++ [z; e]) \/ (ls = [e] /\ parse_i32 s 0 = Ok 0%Z) ->
    exists x ra rb, text_pair (mk_text (lb ls) enc None o) s = (x, ra) /\ text_pair (mk_text (lb ls ++ junk) enc None o) s = (x, rb) /\
      forall y, x = Some y -> both (CodePairModel.RText ra) (CodePairModel.RText rb) /\ (done (CodePairModel.RText ra) -> not_section y).
  Proof.
    intros F N Sh. unfold text_pair. destruct (trim s) as [|b w] eqn:T; [do 3 eexists; split; [reflexivity|]; split; [reflexivity|]; discriminate|]. cbn [t_off t_enc t_rest].
    destruct (parse_i32 (b :: w) o) as [code|er] eqn:P.
    2:{ do 3 eexists. split; [reflexivity|]. split; [reflexivity|]. intros y Y. injection Y as <-. split; [|intros; exact Logic.I]. exists ls, enc, None, o. split; [exact F|]. split; [|split; reflexivity].
        destruct Sh as [Sh|[Sh _]]; [left; exact Sh|right; left; split; [exact Sh|exact Logic.I]]. }
    destruct ls as [|l ls]; [contradiction N; reflexivity|]. inversion F as [|? ? Fl Fs]; subst. rewrite (read_one false enc l ls junk Fl), (read_one0 false enc l ls Fl).
    assert (Sh' : (exists pre, ls = pre ++ [z; e]) \/ ls = [e] \/ (ls = [] /\ l = e /\ parse_i32 s 0 = Ok 0%Z)).
    { destruct Sh as [[pre Sh]|[Sh Q]]; [|injection Sh as -> ->; right; right; auto]. destruct pre as [|a pre]; cbn [app] in Sh; injection Sh as -> ->; [right; left; reflexivity|left; exists pre; reflexivity]. }
    assert (B : both (CodePairModel.RText (mk_text (lb ls) enc None (o + 1))) (CodePairModel.RText (mk_text (lb ls ++ junk) enc None (o + 1)))).
    { exists ls, enc, None, (o + 1). split; [exact Fs|]. split; [|split; reflexivity]. destruct Sh' as [Sh'|[Sh'|[Sh' _]]]; [left; exact Sh'|right; left; split; [exact Sh'|exact Logic.I]|right; right; split; [exact Sh'|reflexivity]]. }
    assert (D : done (CodePairModel.RText (mk_text (lb ls) enc None (o + 1))) -> ls = []).
    { intros (enc' & o' & E). injection E as E _ _. destruct ls as [|a ls]; [reflexivity|]. rewrite lb_cons in E. destruct a; discriminate E. }
    destruct (line_text enc l) as [t|] eqn:V; cbn [res_of_option]; [|do 3 eexists; split; [reflexivity|]; split; [reflexivity|]; intros y Y; injection Y as <-; split; [exact B|intros; exact Logic.I]].
    destruct (expected_type code) as [ty|] eqn:X; [|do 3 eexists; split; [reflexivity|]; split; [reflexivity|]; intros y Y; injection Y as <-; split; [exact B|intros; exact Logic.I]].
    do 3 eexists. split; [reflexivity|]. split; [reflexivity|]. intros y Y. injection Y as <-. split; [exact B|]. intros Dn. specialize (D Dn). subst ls. destruct Sh' as [[pre Sh']|[Sh'|(_ & -> & Q)]]; [destruct pre; discriminate Sh'|discriminate Sh'|].
    destruct (trim_code s _ Q) as [_ Q']. rewrite T in Q'. rewrite (Q' o) in P. injection P as <-. destruct Z as (_ & _ & _ & E). rewrite (proj1 (E enc)) in V. injection V as <-. cbn in X. injection X as <-.
    destruct enc; reflexivity.
  Qed.
  Lemma next_both ra rb : both ra rb -> done ra \/ exists x ra' rb', reader_next ra = (x, ra') /\ reader_next rb = (x, rb') /\ forall y, x = Some y -> both ra' rb' /\ (done ra' -> not_section y).
  Proof.
    intros (ls & enc & f & o & F & Sh & -> & ->). cbn [reader_next]. unfold text_next. cbn [t_first t_rest t_enc t_off].
    assert (G : forall n s ls, Forall one_line ls -> ls <> [] -> (exists pre, ls = pre ++ [z; e]) \/ (ls = [e] /\ parse_i32 s 0 = Ok 0%Z) ->
      exists x ra' rb', (let '(y, st') := text_pair (mk_text (lb ls) enc None n) s in (y, CodePairModel.RText st')) = (x, ra') /\ (let '(y, st') := text_pair (mk_text (lb ls ++ junk) enc None n) s in (y, CodePairModel.RText st')) = (x, rb') /\
        forall y, x = Some y -> both ra' rb' /\ (done ra' -> not_section y)).
    { intros n s ks Fk Nk Sk. destruct (pair_both enc n ks s Fk Nk Sk) as (x & ra & rb & -> & -> & H). do 3 eexists. split; [reflexivity|]. split; [reflexivity|exact H]. }
    destruct f as [s|].
    - right. apply G; [exact F| |].
      + destruct Sh as [[pre ->]|[[-> _]|[_ X]]]; [destruct pre; discriminate|discriminate|discriminate X].
      + destruct Sh as [Sh|[Sh|[_ X]]]; [left; exact Sh|right; exact Sh|discriminate X].
    - destruct ls as [|l ls]; [left; exists enc, o; reflexivity|right]. inversion F as [|? ? Fl Fs]; subst.
      rewrite (read_one true WINDOWS_1252 l ls junk Fl), (read_one0 true WINDOWS_1252 l ls Fl).
      destruct (line_text WINDOWS_1252 (without_mark l)) as [s|] eqn:L; cbn [res_of_option].
      + destruct ls as [|l2 ls].
        { (* the last line as a code *)
          assert (l = e) as -> by (destruct Sh as [[pre Sh]|[[Sh _]|[Sh _]]]; [destruct pre as [|? pre]; [discriminate Sh|destruct pre; discriminate Sh]|injection Sh as ->; reflexivity|discriminate Sh]).
          destruct Z as (_ & _ & _ & E). rewrite (proj2 (E WINDOWS_1252)) in L. injection L as <-. unfold text_pair. cbn [t_off t_enc t_rest].
          assert (P : exists er, forall n, parse_i32 (str "EOF") n = Err (er n)) by (eexists; intros n; reflexivity). destruct P as (er & P).
          change (trim (str "EOF")) with (str "EOF"). change (str "EOF") with (hd 0 (str "EOF") :: tl (str "EOF")). cbn match. change (hd 0 (str "EOF") :: tl (str "EOF")) with (str "EOF"). rewrite P.
          do 3 eexists. split; [reflexivity|]. split; [reflexivity|]. intros y Y. injection Y as <-. split; [|intros; exact Logic.I]. exists [], enc, None, (o + 1). split; [constructor|]. split; [right; right; split; reflexivity|]. split; reflexivity. }
        apply G; [exact Fs|discriminate|]. destruct Sh as [[pre Sh]|[[Sh _]|[Sh _]]]; [|discriminate Sh|discriminate Sh]. destruct pre as [|a pre]; cbn [app] in Sh.
        * injection Sh as -> -> ->. right. split; [reflexivity|]. destruct Z as (_ & _ & Q & _). destruct (Q WINDOWS_1252) as (s' & L' & P). rewrite L' in L. injection L as <-. exact P.
        * injection Sh as -> Sh. left. exists pre. exact Sh.
      + do 3 eexists. split; [reflexivity|]. split; [reflexivity|]. intros y Y. injection Y as <-. split; [|intros; exact Logic.I]. exists ls, enc, None, (o + 1). split; [exact Fs|]. split; [|split; reflexivity].
        destruct Sh as [[pre Sh]|[[Sh _]|[Sh _]]]; [|injection Sh as _ ->; right; right; split; reflexivity|discriminate Sh]. destruct pre as [|a pre]; cbn [app] in Sh; injection Sh as _ Sh; [right; left; split; [exact Sh|exact Logic.I]|left; exists pre; exact Sh].
  Qed.
  Lemma both_utf8 ra rb : both ra rb -> both (read_as_utf8 ra) (read_as_utf8 rb).
  Proof. intros (ls & enc & f & o & F & Sh & -> & ->). exists ls, UTF_8, f, o. auto. Qed.
  Lemma done_none rd f : done rd -> (0 < f)%nat -> fst (next_pair f rd) = None.
  Proof. intros (enc & o & ->) L. destruct f as [|f]; [lia|]. destruct enc; reflexivity. Qed.
  Lemma next_pair_both : forall f g ra rb, both ra rb -> (remaining ra < f)%nat -> (remaining rb < g)%nat ->
    done ra \/ exists x ra' rb', next_pair f ra = (x, ra') /\ next_pair g rb = (x, rb') /\
      forall y, x = Some y -> both ra' rb' /\ (done ra' -> forall p, y = Ok p -> is_zero "ENDSEC" p = false).
  Proof.
    induction f as [|f IH]; intros g ra rb B La Lb; [lia|]. destruct g as [|g]; [lia|]. destruct (next_both ra rb B) as [D|(x & ra' & rb' & Ea & Eb & H)]; [left; exact D|right]. cbn [next_pair]. rewrite Ea, Eb.
    destruct x as [[[p o]|er]|].
    - destruct (H _ eq_refl) as [B' D']. pose proof (reader_next_some _ _ _ Ea). pose proof (reader_next_some _ _ _ Eb). destruct (p_code p =? 999)%Z eqn:C.
      + destruct (IH g ra' rb' B' ltac:(lia) ltac:(lia)) as [D|Q]; [|exact Q]. specialize (D' D). cbn [not_section] in D'. subst p. discriminate C.
      + do 3 eexists. split; [reflexivity|]. split; [reflexivity|]. intros y Y. injection Y as <-. split; [exact B'|]. intros D q Q. injection Q as <-. specialize (D' D). cbn [not_section] in D'. subst p. reflexivity.
    - destruct (H _ eq_refl) as [B' D']. do 3 eexists. split; [reflexivity|]. split; [reflexivity|]. intros y Y. injection Y as <-. split; [exact B'|]. intros D q Q. discriminate Q.
    - do 3 eexists. split; [reflexivity|]. split; [reflexivity|]. discriminate.
  Qed.
  Lemma ends_cons x l : ends l -> ends (x :: l).
  Proof. intros (pre & y & -> & H). exists (x :: pre), y. split; [reflexivity|exact H]. Qed.
  Definition same_item (x y : reader * res pair) : Prop := both (fst x) (fst y) /\ ~ done (fst x) /\ snd x = snd y.
  Lemma trace_both : forall f ra rb, both ra rb -> (remaining ra < f)%nat -> (remaining rb < f)%nat ->
    exists tb j, trace f rb = tb ++ j /\ Forall2 same_item (trace f ra) tb /\ (j = [] \/ done ra \/ ends (map snd (trace f ra))).
  Proof.
    induction f as [|f IH]; intros ra rb B La Lb; [lia|].
    change (trace (S f) ra) with (match next_pair (S f) ra with (None, _) => [] | (Some x, rd') => (ra, x) :: trace f rd' end).
    change (trace (S f) rb) with (match next_pair (S f) rb with (None, _) => [] | (Some x, rd') => (rb, x) :: trace f rd' end).
    destruct (next_pair_ends (S f) ra La) as [Ka _]. destruct (next_pair_ends (S f) rb Lb) as [Kb _].
    assert (D0 : done ra -> fst (next_pair (S f) ra) = None) by (intros D; apply done_none; [exact D|lia]).
    destruct (next_pair_both (S f) (S f) ra rb B La Lb) as [D|(x & ra' & rb' & Ea & Eb & H)].
    - specialize (D0 D). destruct (next_pair (S f) ra) as [x ra']. cbn [fst] in D0. subst x. exists []. eexists. split; [reflexivity|]. split; [constructor|]. right; left. exact D.
    - rewrite Ea in *. rewrite Eb in *. destruct x as [x|]; [|exists [], []; split; [reflexivity|]; split; [constructor|left; reflexivity]]. destruct (H _ eq_refl) as [B' D'].
      destruct (IH ra' rb' B' ltac:(lia) ltac:(lia)) as (tb & j & E & F & K). exists ((rb, x) :: tb), j. split; [rewrite E; reflexivity|]. split; [constructor; [|exact F]|].
      { split; [exact B|]. split; [|reflexivity]. intros D. specialize (D0 D). discriminate D0. }
      destruct K as [K|[K|K]]; [left; exact K| |right; right; apply ends_cons, K]. right; right. cbn [map snd].
      assert (trace f ra' = []) as ->.
      { destruct f as [|f]; [lia|]. change (trace (S f) ra') with (match next_pair (S f) ra' with (None, _) => [] | (Some x, rd') => (ra', x) :: trace f rd' end).
        pose proof (done_none ra' (S f) K ltac:(lia)) as N. destruct (next_pair (S f) ra') as [y rd]. cbn [fst] in N. subst y. reflexivity. }
      exists [], x. split; [reflexivity|]. exact (D' K).
  Qed.
  Lemma full_trace_both ra rb : both ra rb -> exists tb j, trace (reader_fuel rb) rb = tb ++ j /\
    Forall2 same_item (trace (reader_fuel ra) ra) tb /\ (j = [] \/ done ra \/ ends (map snd (trace (reader_fuel ra) ra))).
  Proof.
    intros H. set (f := S (remaining ra + remaining rb)). destruct (trace_ends _ ra (reader_fuel_enough ra)) as [_ A]. destruct (trace_ends _ rb (reader_fuel_enough rb)) as [_ B].
    rewrite <- (A f), <- (B f) by lia. apply trace_both; [exact H|lia|lia].
  Qed.
  (** A reader that has not come to the end. *)
  Lemma feed_both ra rb : both ra rb -> ~ done ra -> exists j, feed_of rb = feed_of ra ++ j /\ follows (feed_of ra) j.
  Proof.
    intros B N. destruct (full_trace_both ra rb B) as (tb & j & E & F & K). unfold feed_of. rewrite E, map_app. exists (map snd j). split.
    - f_equal. clear - F. induction F as [|x y l l' (_ & _ & E) _ IH]; [reflexivity|]. cbn [map]. rewrite E, IH. reflexivity.
    - destruct K as [->|[K|K]]; [left; reflexivity|contradiction|right; exact K].
  Qed.
  Lemma done_utf8 rd : done (read_as_utf8 rd) -> done rd.
  Proof. destruct rd as [st|st]; intros (enc & o & E); [|discriminate E]. destruct st as [r en f o']. cbn in E. injection E as -> _ -> _. exists en, o'. reflexivity. Qed.
  Lemma feed_utf8_both ra rb j s : both ra rb -> feed_of rb = feed_of ra ++ j -> s <> [] -> tail_of s (feed_of ra) ->
    exists j2, feed_as_utf8 rb (s ++ j) = feed_as_utf8 ra s ++ j2 /\ follows (feed_as_utf8 ra s) j2.
  Proof.
    intros B Ej N [pre T]. destruct (full_trace_both ra rb B) as (tb & tj & E & F & _). unfold feed_as_utf8. cbv zeta.
    assert (La : length (trace (reader_fuel ra) ra) = (length pre + length s)%nat) by (unfold feed_of in T; rewrite <- app_length, <- T, map_length; reflexivity).
    assert (Lb : length (trace (reader_fuel rb) rb) = (length pre + length s + length j)%nat) by (rewrite <- (map_length snd); change (map snd (trace (reader_fuel rb) rb)) with (feed_of rb); rewrite Ej, T, !app_length; lia).
    assert (Lt : length tb = (length pre + length s)%nat) by (rewrite <- La; clear - F; induction F; cbn [length]; congruence).
    rewrite La, Lb. rewrite app_length. replace (length pre + length s + length j - (length s + length j))%nat with (length pre) by lia. replace (length pre + length s - length s)%nat with (length pre) by lia.
    assert (Ls : (0 < length s)%nat) by (destruct s; [contradiction N; reflexivity|cbn [length]; lia]). rewrite E, (nth_error_app1 tb) by lia.
    assert (Q : exists x y, nth_error (trace (reader_fuel ra) ra) (length pre) = Some x /\ nth_error tb (length pre) = Some y /\ same_item x y).
    { assert (P : (length pre < length tb)%nat) by lia. revert P. generalize (length pre). clear - F. induction F as [|x y l l' H _ IH]; intros n P; cbn [length] in P; [lia|]. destruct n as [|n]; [exists x, y; split; [reflexivity|]; split; [reflexivity|exact H]|].
      cbn [nth_error]. apply IH. lia. }
    destruct Q as ([x x'] & [y y'] & -> & -> & H & D & _). cbn [fst] in *. apply feed_both; [apply both_utf8, H|]. intros X. apply D, done_utf8, X.
  Qed.
End Text.

(** * Files *)
Lemma end_text z e w : end_lines z e -> Forall one_line w -> forall bs, bs = lb (w ++ [z; e]) -> exists l r, bs = l ++ 10 :: r /\ one_line l.
Proof.
  intros Z F bs ->. destruct w as [|l w]; cbn [app]; rewrite lb_cons; eexists _, _; (split; [reflexivity|]); [exact (proj1 Z)|inversion F; assumption].
Qed.
Theorem text_trailer env enc w z e junk d : end_lines z e -> Forall one_line w ->
  (forall s, line_text enc (without_mark (nth_line 0 (lb (w ++ [z; e])))) = Some s -> s <> str "AutoCAD Binary DXF" /\ s <> DxbModel.dxb_line) ->
  load_bytes env enc (lb (w ++ [z; e])) = Ok d -> load_bytes env enc (lb (w ++ [z; e]) ++ junk) = Ok d.
Proof.
  intros Z F T H. assert (C : exists l ls, w ++ [z; e] = l :: ls /\ one_line l /\ Forall one_line ls /\ ((exists pre, ls = pre ++ [z; e]) \/ (ls = [e] /\ l = z))).
  { pose proof Z as (Nz & Ne & _). destruct w as [|l w].
    - exists z, [e]. split; [reflexivity|]. split; [exact Nz|]. split; [constructor; [exact Ne|constructor]|right; split; reflexivity].
    - inversion F; subst. exists l, (w ++ [z; e]). split; [reflexivity|]. split; [assumption|]. split; [apply Forall_app; split; [assumption|]; constructor; [exact Nz|constructor; [exact Ne|constructor]]|left; exists w; reflexivity]. }
  destruct C as (l & ls & E & Nl & Fl & Sh). rewrite E in *. clear E F w.
  assert (N0 : nth_line 0 (lb (l :: ls)) = l) by (rewrite lb_cons; apply nth_line_0; [exact Nl|right; eexists; reflexivity]). rewrite N0 in T.
  unfold load_bytes, after_dxb_line, open_reader in *. rewrite (read_one true enc l ls junk Nl). rewrite (read_one0 true enc l ls Nl) in H.
  destruct (line_text enc (without_mark l)) as [s|] eqn:L; cbn [res_of_option bind] in *; [|exact H]. destruct (T s eq_refl) as [N1 N2].
  assert (Q : forall a b, a <> b -> seqb a b = false) by (intros a b N; destruct (seqb a b) eqn:X; [apply seqb_eq in X; contradiction|reflexivity]). rewrite (Q _ _ N1), (Q _ _ N2) in *. cbn [bind] in *.
  set (ra := CodePairModel.RText (mk_text (lb ls) enc (Some s) 1)) in *. set (rb := CodePairModel.RText (mk_text (lb ls ++ junk) enc (Some s) 1)).
  assert (B : both z e junk ra rb).
  { exists ls, enc, (Some s), 1. split; [exact Fl|]. split; [|split; reflexivity]. destruct Sh as [Sh|[-> ->]]; [left; exact Sh|]. right; left. split; [reflexivity|]. destruct Z as (_ & _ & P & _). destruct (P enc) as (s' & L' & P'). rewrite L' in L. injection L as <-. exact P'. }
  assert (D : ~ done ra) by (intros (? & ? & X); discriminate X). destruct (feed_both z e junk Z ra rb B D) as (j & Ej & Fj). rewrite Ej.
  apply (load_longer (feed_as_utf8 ra)); [| |intros u Nu Tu; exact (feed_utf8_both z e junk Z ra rb j u B Ej Nu Tu)|exact H]; [|exact Fj].
  unfold feed_as_utf8. cbn [length]. rewrite Nat.sub_0_r. rewrite (proj2 (nth_error_None _ _)) by lia. reflexivity.
Qed.

Lemma mark_lines n w w' : (w = [] \/ w = [13]) -> (w' = [] \/ w' = [13]) -> end_lines (repeat 32 n ++ str "0" ++ w) (str "EOF" ++ w').
Proof.
  intros W W'. assert (Forall (fun b => b < 128 /\ b <> 10)%N (repeat 32 n ++ str "0" ++ w)) as F.
  { apply Forall_app. split; [apply Forall_forall; intros x Hx; apply repeat_spec in Hx; subst x; lia|]. apply Forall_app. split; [apply Forall_forall; intros x Hx; vm_compute in Hx; repeat (destruct Hx as [<-|Hx]; [lia|]); destruct Hx|]. destruct W as [->| ->]; [apply Forall_nil|]. apply Forall_cons; [lia|apply Forall_nil]. }
  split; [intros H; rewrite Forall_forall in F; specialize (F _ H); lia|]. split; [intros H; destruct W' as [->| ->]; vm_compute in H; repeat (destruct H as [H|H]; [discriminate H|]); exact H|]. split.
  - intros e. rewrite without_mark_other by (destruct n; cbn [repeat app hd]; vm_compute; discriminate). unfold line_text. rewrite decode_ascii by (eapply Forall_impl; [|exact F]; cbn; lia).
    exists (repeat 32 n ++ str "0"). split.
    + cbn [option_map]. f_equal. unfold strip_cr. destruct W as [->| ->]; rewrite ?app_nil_r.
      * rewrite rev_app_distr. reflexivity.
      * rewrite app_assoc, rev_app_distr. cbn [rev app]. change (13 =? 13)%N with true. cbv iota. apply rev_involutive.
    + pose proof (parse_i32_show (repeat 32 n) [] 0 0) as Q. rewrite app_nil_r in Q. apply Q; [|apply Forall_nil]. apply Forall_forall. intros y Hy. apply repeat_spec in Hy. subst y. reflexivity.
  - intros enc. destruct enc, W' as [->| ->]; split; reflexivity.
Qed.
Lemma trailing env enc bs junk d : ends_with_mark bs -> text_file_start enc bs -> load_bytes env enc bs = Ok d -> load_bytes env enc (bs ++ junk) = Ok d.
Proof.
  intros (pre & n & w & w' & E & P & W & W') T L. destruct (whole_lines pre P) as (ls & -> & F).
  assert (Q : forall v, line_end v -> exists u, v = u ++ [10] /\ (u = [] \/ u = [13])) by (intros v [->| ->]; [exists []|exists [13]]; auto).
  destruct (Q w W) as (u & -> & U). destruct (Q w' W') as (u' & -> & U').
  assert (B : bs = lb (ls ++ [repeat 32 n ++ str "0" ++ u; str "EOF" ++ u'])).
  { rewrite E. unfold lb. rewrite flat_map_app. cbn [flat_map]. rewrite app_nil_r, <- !app_assoc. reflexivity. }
  rewrite B in *. apply text_trailer; [apply mark_lines; assumption|exact F|exact T|exact L].
Qed.

(** * Saved text files *)
Lemma code_pairs_mark d ps : code_pairs d = Ok ps -> exists qs, ps = FileModel.zero "SECTION" :: qs ++ [FileModel.zero "EOF"].
Proof.
  assert (A : forall (p q : pair) h c t b e o i, exists qs, (p :: h) ++ c ++ t ++ b ++ e ++ o ++ i ++ [q] = p :: qs ++ [q]).
  { intros. exists (h ++ c ++ t ++ b ++ e ++ o ++ i). rewrite <- !app_assoc. reflexivity. }
  unfold code_pairs. cbv zeta. intros H.
  repeat (match type of H with bind ?x _ = _ => destruct x as [?u|]; cbn [bind] in H; [|discriminate H] end). injection H as <-. exact (A _ _ (name_pair "HEADER" :: u ++ [FileModel.zero "ENDSEC"]) u0 u1 u2 (FileModel.section "ENTITIES" u3) u4 u5).
Qed.
Lemma text_pair_end ascii p : exists w, write_text_pair ascii p = w ++ [10].
Proof.
  unfold write_text_pair. assert (U : forall a, exists w, utf8_encode (a ++ crlf) = w ++ [10]).
  { intros a. exists (utf8_encode a ++ [13]). unfold utf8_encode. rewrite flat_map_app, <- app_assoc. reflexivity. }
  destruct (p_value p); match goal with |- context [_ ++ utf8_encode (?a ++ crlf)] => destruct (U a) as [w ->] end; eexists; rewrite app_assoc; reflexivity.
Qed.
Lemma text_end ascii ps : ps <> [] -> last (write_text ascii ps) 0%N = 10.
Proof.
  intros N. destruct (exists_last N) as (qs & p & ->). unfold write_text. rewrite flat_map_app. cbn [flat_map]. rewrite app_nil_r. destruct (text_pair_end ascii p) as [w ->]. rewrite app_assoc. apply last_last.
Qed.
Lemma saved_text_mark d bs : save_text d = Ok bs -> ends_with_mark bs /\ forall enc, text_file_start enc bs.
Proof.
  unfold save_text. destruct (code_pairs d) as [ps|] eqn:C; [|discriminate]. cbn [bind]. intros H. injection H as <-. destruct (code_pairs_mark d ps C) as (qs & ->). set (ascii := version_leb (version_in d) R2004). split.
  - exists (write_text ascii (FileModel.zero "SECTION" :: qs)), 2%nat, [13; 10], [13; 10]. split.
    + rewrite app_comm_cons. unfold write_text. rewrite flat_map_app. f_equal. destruct ascii; reflexivity.
    + split; [right; apply text_end; discriminate|]. split; right; reflexivity.
  - intros enc s. unfold write_text. cbn [flat_map]. change (write_text_pair ascii (FileModel.zero "SECTION")) with (str "  0" ++ 13 :: 10 :: value_bytes ascii (VStr (str "SECTION"))).
    change (str "  0" ++ 13 :: 10 :: value_bytes ascii (VStr (str "SECTION"))) with ((str "  0" ++ [13]) ++ 10 :: value_bytes ascii (VStr (str "SECTION"))). rewrite <- app_assoc.
    rewrite nth_line_0; [|intros X; vm_compute in X; repeat (destruct X as [X|X]; [discriminate X|]); exact X|right; eexists; reflexivity].
    destruct enc; intros X; vm_compute in X; injection X as <-; split; discriminate.
Qed.

(** * Binary files *)
Lemma trace_rest : forall f rd, (remaining rd < f)%nat -> forall k a x, nth_error (trace f rd) k = Some (a, x) -> feed_of a = map snd (skipn k (trace f rd)) /\ ((exists st, rd = CodePairModel.RBin st) -> exists st, a = CodePairModel.RBin st).
Proof.
  induction f as [|f IH]; intros rd L k a x; [lia|]. destruct k as [|k].
  - intros H. assert (a = rd) as ->. { cbn [trace] in H. destruct (next_pair (S f) rd) as [[y|] rd']; [injection H as <- _; reflexivity|discriminate H]. }
    split; [|auto]. unfold feed_of. destruct (trace_ends _ rd (reader_fuel_enough rd)) as [_ A]. rewrite <- (A (S f)) by lia. reflexivity.
  - change (trace (S f) rd) with (match next_pair (S f) rd with (None, _) => [] | (Some x, rd') => (rd, x) :: trace f rd' end).
    destruct (next_pair_ends (S f) rd L) as [K _]. destruct (next_pair (S f) rd) as [[y|] rd'] eqn:N; [|discriminate]. cbn [nth_error skipn]. intros H. destruct (IH rd' ltac:(lia) k a x H) as [A B]. split; [exact A|].
    intros (st & ->). apply B. clear - N. assert (Q : forall f st y rd', next_pair f (CodePairModel.RBin st) = (y, rd') -> exists st', rd' = CodePairModel.RBin st').
    { clear. induction f as [|f IH]; intros st y rd' N; cbn [next_pair] in N; [injection N as _ <-; eauto|]. cbn [reader_next] in N. destruct (bin_next st) as [[[[p o]|e]|] st']; [|injection N as _ <-; eauto|injection N as _ <-; eauto].
      destruct (p_code p =? 999)%Z; [exact (IH _ _ _ N)|injection N as _ <-; eauto]. }
    exact (Q _ _ _ _ N).
Qed.
Lemma bin_utf8 st s : s <> [] -> tail_of s (feed_of (CodePairModel.RBin st)) -> feed_as_utf8 (CodePairModel.RBin st) s = s.
Proof.
  intros N [pre T]. set (rd := CodePairModel.RBin st) in *. unfold feed_as_utf8. cbv zeta. unfold feed_of in T.
  assert (L : length (trace (reader_fuel rd) rd) = (length pre + length s)%nat) by (rewrite <- (map_length snd), T, app_length; reflexivity).
  rewrite L. replace (length pre + length s - length s)%nat with (length pre) by lia. assert (0 < length s)%nat by (destruct s; [contradiction N; reflexivity|cbn [length]; lia]).
  destruct (nth_error (trace (reader_fuel rd) rd) (length pre)) as [[a x]|] eqn:E; [|apply nth_error_None in E; lia].
  destruct (trace_rest _ rd (reader_fuel_enough rd) _ _ _ E) as [A B]. destruct (B (ex_intro _ st eq_refl)) as [st' ->]. change (read_as_utf8 (CodePairModel.RBin st')) with (CodePairModel.RBin st'). rewrite A, <- skipn_map, T, skipn_app, skipn_all, Nat.sub_diag. reflexivity.
Qed.
Lemma bin_more r13 junk : forall ps o f, Forall (pair_ok_bin r13) ps -> Forall plain ps -> let rd := CodePairModel.RBin (mk_bin (flat_map (write_bin_pair r13) ps ++ junk) true r13 o) in
  (remaining rd < f)%nat -> exists j, map snd (trace f rd) = map Ok ps ++ j.
Proof.
  induction ps as [|p ps IH]; intros o f H P rd L; [eexists; reflexivity|]. inversion H as [|? ? [Hp Fp] Hps]; subst. inversion P as [|? ? Pp Pps]; subst. destruct f as [|f]; [lia|].
  set (o' := (o + N.of_nat (length (write_bin_pair r13 p)))%N). set (rd' := CodePairModel.RBin (mk_bin (flat_map (write_bin_pair r13) ps ++ junk) true r13 o')).
  assert (E : reader_next rd = (Some (Ok (p, o')), rd')).
  { unfold rd. cbn [reader_next flat_map]. rewrite <- app_assoc, bin_next_write by assumption. reflexivity. }
  pose proof (reader_next_some _ _ _ E) as M. destruct (IH o' f Hps Pps ltac:(fold rd'; lia)) as [j J]. fold rd' in J. exists j. cbn [trace].
  rewrite (next_pair_keeps f rd (Ok (p, o')) rd' E); [|intros q oq Q; injection Q as <- <-; exact Pp]. cbn [map snd app]. rewrite J. reflexivity.
Qed.
Lemma open_binary enc r13 ps junk : open_reader enc (write_binary r13 ps ++ junk) = Ok (CodePairModel.RBin (mk_bin (flat_map (write_bin_pair r13) ps ++ junk) false false 20)) /\ after_dxb_line enc (write_binary r13 ps ++ junk) = None.
Proof.
  split; [|unfold after_dxb_line, write_binary, bin_sentinel; destruct enc; reflexivity]. unfold open_reader, write_binary, bin_sentinel.
  change (str "AutoCAD Binary DXF" ++ [13; 10; 26; 0]) with (str "AutoCAD Binary DXF" ++ crlf ++ [26; 0]).
  rewrite <- !app_assoc. rewrite read_line_ascii by (apply ascii_line_b; reflexivity).
  cbn [bind]. rewrite seqb_refl. cbn [app]. change (26 =? 26)%N with true. change (0 =? 0)%N with true. cbn iota. reflexivity.
Qed.
Lemma feed_binary r13 s ps junk : s <> [] -> Forall (pair_ok_bin r13) (mk_pair 0 (VStr s) :: ps) -> Forall plain ps ->
  exists j, feed_of (CodePairModel.RBin (mk_bin (flat_map (write_bin_pair r13) (mk_pair 0 (VStr s) :: ps) ++ junk) false false 20)) = map Ok (mk_pair 0 (VStr s) :: ps) ++ j.
Proof.
  intros Hs H P. inversion H as [|? ? [T0 F0] Hr]; subst. set (p0 := mk_pair 0 (VStr s)) in *. set (rd := CodePairModel.RBin (mk_bin (flat_map (write_bin_pair r13) (p0 :: ps) ++ junk) false false 20)).
  set (o1 := (20 + N.of_nat (length (write_bin_pair r13 p0)))%N). set (rd' := CodePairModel.RBin (mk_bin (flat_map (write_bin_pair r13) ps ++ junk) true r13 o1)).
  assert (E : reader_next rd = (Some (Ok (p0, o1)), rd')).
  { unfold rd. cbn [reader_next flat_map]. rewrite <- app_assoc. unfold p0 at 1. rewrite bin_next_first by assumption. reflexivity. }
  pose proof (reader_next_some _ _ _ E) as M. unfold feed_of. pose proof (reader_fuel_enough rd) as L. destruct (reader_fuel rd) as [|f]; [lia|]. destruct (bin_more r13 junk ps o1 f Hr P ltac:(fold rd'; lia)) as [j J]. fold rd' in J. exists j. cbn [trace].
  rewrite (next_pair_keeps f rd (Ok (p0, o1)) rd' E); [|intros q oq Q; injection Q as <- <-; discriminate]. cbn [map snd app]. rewrite J. reflexivity.
Qed.
Lemma binary_trailer env enc r13 s ps junk d : s <> [] -> Forall (pair_ok_bin r13) (mk_pair 0 (VStr s) :: ps ++ [FileModel.zero "EOF"]) -> Forall plain ps ->
  let bs := write_binary r13 (mk_pair 0 (VStr s) :: ps ++ [FileModel.zero "EOF"]) in load_bytes env enc bs = Ok d -> load_bytes env enc (bs ++ junk) = Ok d.
Proof.
  intros Hs H P bs L. unfold bs in *. clear bs. assert (P' : Forall plain (ps ++ [FileModel.zero "EOF"])) by (apply Forall_app; split; [exact P|constructor; [discriminate|constructor]]).
  set (qs := ps ++ [FileModel.zero "EOF"]) in *. unfold load_bytes in *. destruct (open_binary enc r13 (mk_pair 0 (VStr s) :: qs) junk) as [O D]. rewrite O, D. cbn [bind].
  destruct (open_binary enc r13 (mk_pair 0 (VStr s) :: qs) []) as [O' D']. rewrite app_nil_r in O', D'. rewrite O', D' in L. cbn [bind] in L.
  destruct (feed_binary r13 s qs junk Hs H P') as [j J]. set (st := mk_bin _ _ _ _) in J. change (mk_bin _ false false 20) with st.
  set (st0 := mk_bin (flat_map (write_bin_pair r13) (mk_pair 0 (VStr s) :: qs) ++ []) false false 20) in L.
  destruct (bin_file r13 s qs Hs H P') as (rd & Or & Fr & _). 
  assert (Q : rd = CodePairModel.RBin st0). { destruct (open_binary WINDOWS_1252 r13 (mk_pair 0 (VStr s) :: qs) []) as [O2 _]. rewrite app_nil_r, Or in O2. injection O2 as ->. reflexivity. } subst rd.
  rewrite J. rewrite Fr in L. apply (load_longer (feed_as_utf8 (CodePairModel.RBin st0))); [| | |exact L].
  - unfold feed_as_utf8. cbn [length]. rewrite Nat.sub_0_r. rewrite (proj2 (nth_error_None _ _)) by lia. reflexivity.
  - right. exists (map Ok (mk_pair 0 (VStr s) :: ps)), (Ok (FileModel.zero "EOF")). split; [unfold qs; rewrite app_comm_cons, map_app; reflexivity|]. intros p X. injection X as <-. reflexivity.
  - intros u Nu Tu. exists j. rewrite (bin_utf8 st0 u Nu) by (rewrite Fr; exact Tu). rewrite bin_utf8; [|destruct u; [contradiction Nu; reflexivity|discriminate]|rewrite J; destruct Tu as [pre ->]; exists pre; rewrite app_assoc; reflexivity].
    split; [reflexivity|]. right. apply (ends_tail (map Ok (mk_pair 0 (VStr s) :: qs))); [|exact Tu|exact Nu]. exists (map Ok (mk_pair 0 (VStr s) :: ps)), (Ok (FileModel.zero "EOF")). split; [unfold qs; rewrite app_comm_cons, map_app; reflexivity|]. intros p X. injection X as <-. reflexivity.
Qed.

(** Loading from bytes: what a reader delivers, and readers that deliver the same. *)
From Verif Require Import Base TextModel TextProofs F64Model CodePairModel CodePairProofs ReaderProofs VersionModel StreamModel SpecModel SpecSpec HeaderModel HeaderData
  DrawingModel FileModel SaveModel SuffixProofs LoadSpec LoadProofs CodePairSpec LineProofs.
Open Scope list_scope.
Open Scope N_scope.
Set Default Goal Selector "!".

(** * What a reader delivers *)
(** Whatever is delivered, a pair or an error, something has been read. *)
Lemma text_pair_consumes st raw x st' : t_first st = None -> text_pair st raw = (x, st') -> t_first st' = None /\ (length (t_rest st') <= length (t_rest st))%nat.
Proof.
  intros F H. unfold text_pair in H. destruct (trim raw) as [|c l]; [injection H as _ <-; split; [exact F|lia]|].
  destruct (parse_i32 _ _); [|injection H as _ <-; split; [exact F|lia]].
  destruct (read_line false (t_enc st) (t_rest st)) as [vl r] eqn:RL. apply read_line_consumes in RL as [RL _].
  destruct vl; [|injection H as _ <-; cbn [t_first t_rest]; split; [reflexivity|exact RL]].
  destruct (expected_type _); injection H as _ <-; cbn [t_first t_rest]; (split; [reflexivity|exact RL]).
Qed.
Lemma reader_next_some rd x rd' : reader_next rd = (Some x, rd') -> (remaining rd' < remaining rd)%nat.
Proof.
  destruct rd as [st|st]; cbn [reader_next].
  - destruct (text_next st) as [y st'] eqn:T. intros [= -> <-]. cbn [remaining]. unfold text_next in T. destruct (t_first st) as [fl|] eqn:F.
    + apply text_pair_consumes in T as [-> L]; [|reflexivity]. cbn [t_rest] in L. lia.
    + destruct (read_line true WINDOWS_1252 (t_rest st)) as [cl r] eqn:RL. apply read_line_consumes in RL as [R1 R2]. destruct cl as [raw|e].
      2:{ injection T as _ <-. cbn [t_rest t_first]. specialize (R2 ltac:(discriminate)). lia. }
      assert (N : raw <> []) by (intros ->; discriminate T). apply text_pair_consumes in T as [-> L]; [|reflexivity]. cbn [t_rest] in L.
      assert (Q : Ok raw <> Ok []) by congruence. specialize (R2 Q). lia.
  - destruct (bin_next st) as [y st'] eqn:B. intros [= -> <-]. destruct x as [p|e].
    { apply (reader_next_consumes (CodePairModel.RBin st) p (CodePairModel.RBin st')). cbn [reader_next]. rewrite B. reflexivity. }
    cbn [remaining]. unfold bin_next in B. unfold bin_code in B. destruct (b_rest st) as [|b bs]; [discriminate B|]. cbn [length].
    destruct (b_two st).
    + destruct bs as [|h bs]; cbn [read_u8_strict bind] in B; [injection B as _ <-; cbn [b_rest length]; lia|].
      destruct (expected_type _) as [t|]; [|injection B as _ <-; cbn [b_rest length]; lia].
      destruct (bin_value _ _ _ _ _) as [[[[v r'] m] two]|]; [discriminate B|]. injection B as _ <-. cbn [b_rest length]. lia.
    + destruct (b =? 255).
      * destruct (read_i16 bs) as [[z r2]|] eqn:I; cbn [bind] in B; [|injection B as _ <-; cbn [b_rest length]; lia].
        unfold read_i16 in I. cbn [read_le] in I. destruct bs as [|b1 [|b2 bs]]; cbn [read_le bind] in I; try discriminate I. injection I as _ <-.
        destruct (expected_type _) as [t|]; [|injection B as _ <-; cbn [b_rest length]; lia].
        destruct (bin_value _ _ _ _ _) as [[[[v r'] m] two]|]; [discriminate B|]. injection B as _ <-. cbn [b_rest length]. lia.
      * destruct (expected_type _) as [t|]; [|injection B as _ <-; cbn [b_rest length]; lia].
        destruct (bin_value _ _ _ _ _) as [[[[v r'] m] two]|]; [discriminate B|]. injection B as _ <-. cbn [b_rest length]. lia.
Qed.
Lemma next_pair_ends : forall f rd, (remaining rd < f)%nat ->
  match next_pair f rd with
  | (Some x, rd') => (remaining rd' < remaining rd)%nat /\ match x with Ok _ => True | Err e => genuine e end
  | (None, _) => True
  end /\ forall f', (remaining rd < f')%nat -> next_pair f' rd = next_pair f rd.
Proof.
  induction f as [|f IH]; intros rd L; [lia|].
  assert (S' : forall g, (remaining rd < g)%nat -> exists g', g = S g' /\ (remaining rd <= g')%nat) by (intros [|g] H; [lia|]; exists g; split; [reflexivity|lia]).
  cbn [next_pair]. destruct (reader_next rd) as [[[[p o]|e]|] rd'] eqn:E.
  - pose proof (reader_next_some _ _ _ E) as C. destruct (p_code p =? 999)%Z eqn:Q.
    + destruct (IH rd' ltac:(lia)) as [I1 I2]. split.
      * destruct (next_pair f rd') as [[x|] rd2]; [|exact Logic.I]. destruct I1 as [I1 I3]. split; [lia|exact I3].
      * intros g Hg. destruct (S' g Hg) as (g' & -> & Hg'). cbn [next_pair]. rewrite E, Q. apply I2. lia.
    + split; [split; [exact C|exact Logic.I]|]. intros g Hg. destruct (S' g Hg) as (g' & -> & _). cbn [next_pair]. rewrite E, Q. reflexivity.
  - split; [split; [exact (reader_next_some _ _ _ E)|exact (reader_next_genuine _ _ _ E)]|]. intros g Hg. destruct (S' g Hg) as (g' & -> & _). cbn [next_pair]. rewrite E. reflexivity.
  - split; [exact Logic.I|]. intros g Hg. destruct (S' g Hg) as (g' & -> & _). cbn [next_pair]. rewrite E. reflexivity.
Qed.
Lemma trace_ends : forall f rd, (remaining rd < f)%nat ->
  Forall (fun y => match snd y with Ok _ => True | Err e => genuine e end) (trace f rd) /\ forall f', (remaining rd < f')%nat -> trace f' rd = trace f rd.
Proof.
  induction f as [|f IH]; intros rd L; [lia|]. change (trace (S f) rd) with (match next_pair (S f) rd with (None, _) => [] | (Some x, rd') => (rd, x) :: trace f rd' end).
  destruct (next_pair_ends (S f) rd L) as [H1 H2]. destruct (next_pair (S f) rd) as [[x|] rd'] eqn:E.
  - destruct H1 as [C G]. destruct (IH rd' ltac:(lia)) as [I1 I2]. split; [constructor; [exact G|exact I1]|]. intros [|f'] L'; [lia|].
    change (trace (S f') rd) with (match next_pair (S f') rd with (None, _) => [] | (Some y, rd2) => (rd, y) :: trace f' rd2 end).
    rewrite (H2 _ L'), I2 by lia. reflexivity.
  - split; [constructor|]. intros [|f'] L'; [lia|]. change (trace (S f') rd) with (match next_pair (S f') rd with (None, _) => [] | (Some y, rd2) => (rd, y) :: trace f' rd2 end).
    rewrite (H2 _ L'). reflexivity.
Qed.
Lemma reader_fuel_enough rd : (remaining rd < reader_fuel rd)%nat.
Proof. destruct rd as [st|st]; cbn [remaining reader_fuel]; [destruct (t_first st)|]; lia. Qed.
Lemma feed_reports rd : reports (feed_of rd).
Proof.
  intros e He. unfold feed_of in He. apply in_map_iff in He as (y & Ey & Hy). destruct (trace_ends _ rd (reader_fuel_enough rd)) as [H _].
  rewrite Forall_forall in H. specialize (H _ Hy). rewrite Ey in H. destruct H. split; assumption.
Qed.
Lemma utf8_reports rd it : reports (feed_as_utf8 rd it).
Proof. unfold feed_as_utf8. cbv zeta. destruct (nth_error _ _) as [[a x]|]; [apply feed_reports|intros e []]. Qed.

(** * Readers that deliver the same *)
Section Same.
  Variable R : reader -> reader -> Prop.
  Hypothesis next_same : forall a b, R a b -> fst (reader_next a) = fst (reader_next b) /\ (fst (reader_next a) <> None -> R (snd (reader_next a)) (snd (reader_next b))).
  Hypothesis utf8_same : forall a b, R a b -> R (read_as_utf8 a) (read_as_utf8 b).
  Lemma next_pair_same : forall f a b, R a b -> fst (next_pair f a) = fst (next_pair f b) /\ (fst (next_pair f a) <> None -> R (snd (next_pair f a)) (snd (next_pair f b))).
  Proof.
    induction f as [|f IH]; intros a b H; cbn [next_pair]; [split; [reflexivity|intros _; exact H]|].
    destruct (next_same a b H) as [E K]. destruct (reader_next a) as [x a'], (reader_next b) as [y b']. cbn [fst snd] in *. subst y.
    destruct x as [[[p o]|e]|]; cbn [fst snd]; [|split; [reflexivity|intros _; apply K; discriminate]|split; [reflexivity|intros Q; contradiction Q; reflexivity]].
    specialize (K ltac:(discriminate)). destruct (p_code p =? 999)%Z; [apply IH, K|]. split; [reflexivity|intros _; exact K].
  Qed.
  Lemma trace_same : forall f a b, R a b -> Forall2 (fun x y => R (fst x) (fst y) /\ snd x = snd y) (trace f a) (trace f b).
  Proof.
    induction f as [|f IH]; intros a b H; [constructor; [split; [exact H|reflexivity]|constructor]|].
    change (trace (S f) a) with (match next_pair (S f) a with (None, _) => [] | (Some x, rd') => (a, x) :: trace f rd' end).
    change (trace (S f) b) with (match next_pair (S f) b with (None, _) => [] | (Some x, rd') => (b, x) :: trace f rd' end).
    destruct (next_pair_same (S f) a b H) as [E K]. destruct (next_pair (S f) a) as [x a'], (next_pair (S f) b) as [y b']. cbn [fst snd] in *. subst y.
    destruct x as [x|]; [|constructor]. constructor; [split; [exact H|reflexivity]|]. apply IH, K. discriminate.
  Qed.
  Lemma full_trace_same a b : R a b -> Forall2 (fun x y => R (fst x) (fst y) /\ snd x = snd y) (trace (reader_fuel a) a) (trace (reader_fuel b) b).
  Proof.
    intros H. set (f := S (remaining a + remaining b)). destruct (trace_ends _ a (reader_fuel_enough a)) as [_ A]. destruct (trace_ends _ b (reader_fuel_enough b)) as [_ B].
    rewrite <- (A f), <- (B f) by lia. apply trace_same, H.
  Qed.
  Lemma feed_same a b : R a b -> feed_of a = feed_of b.
  Proof. intros H. unfold feed_of. apply full_trace_same in H. induction H as [|x y l l' [_ E] _ IH]; [reflexivity|]. cbn [map]. rewrite E, IH. reflexivity. Qed.
  Lemma feed_utf8_same a b it : R a b -> feed_as_utf8 a it = feed_as_utf8 b it.
  Proof.
    intros H. apply full_trace_same in H. unfold feed_as_utf8. cbv zeta.
    assert (L : length (trace (reader_fuel a) a) = length (trace (reader_fuel b) b)) by (clear - H; induction H; cbn [length]; congruence). rewrite L.
    generalize (length (trace (reader_fuel b) b) - length it)%nat. clear L. induction H as [|x y l l' [E _] _ IH]; intros n; [destruct n; reflexivity|].
    destruct n as [|n]; cbn [nth_error]; [|apply IH]. destruct x as [x x'], y as [y y']. cbn [fst] in E. apply feed_same, utf8_same, E.
  Qed.
End Same.

(** * Loading depends on the pairs only *)
Lemma header_loop_ext sp sw sw' : (forall h r, sw h r = sw' h r) -> forall it cur h, header_loop sp (Some sw) cur h it = header_loop sp (Some sw') cur h it.
Proof.
  intros H. induction it as [|[p|e] it IH]; intros cur h; cbn [header_loop]; [reflexivity| |reflexivity].
  destruct (p_code p =? 0)%Z; [reflexivity|]. destruct (p_code p =? 9)%Z; [destruct (assert_string p); cbn [bind]; [apply IH|reflexivity]|].
  destruct cur as [name|]; [|reflexivity]. destruct (set_header_value _ _ _ _); cbn [bind]; [|reflexivity]. destruct (_ && _); [apply H|apply IH].
Qed.
Lemma read_section_ext sw sw' env name u d it : (forall y, sw y = sw' y) -> read_section sw env name u d it = read_section sw' env name u d it.
Proof.
  intros H. unfold read_section. destruct (seqb name _); [|reflexivity]. unfold read_header. destruct u; [reflexivity|].
  rewrite (header_loop_ext _ _ (fun h r => header_loop header_spec None (Some (str "$ACADVER")) h (sw' r))); [reflexivity|]. intros h r. rewrite H. reflexivity.
Qed.
Lemma sections_ext sw sw' env again again' : (forall y, sw y = sw' y) -> (forall d y, again d y = again' d y) -> forall f u d it,
  sections_with sw env again f u d it = sections_with sw' env again' f u d it.
Proof.
  intros H A. induction f as [|f IH]; intros u d it; [reflexivity|]. cbn [sections_with]. destruct it as [|[p|e] it]; [reflexivity| |reflexivity].
  destruct (p_code p =? 0)%Z; [|reflexivity]. destruct (assert_string p) as [s|e]; cbn [bind]; [|reflexivity]. destruct (seqb s _); [reflexivity|]. destruct (seqb s _); [|reflexivity].
  destruct it as [|[q|e] it]; [reflexivity| |reflexivity]. destruct (if (p_code q =? 2)%Z then _ else _) as [name|]; [|reflexivity]. rewrite (read_section_ext sw sw') by exact H.
  destruct (read_section sw' env name u d it) as [[[d' u'] r]|e]; cbn [bind]; [|reflexivity]. destruct (expect _ r) as [r3|e]; cbn [bind fst snd]; [|reflexivity].
  destruct (negb u && u'); [apply A|apply IH].
Qed.
Lemma load_ext sw sw' env it : (forall y, sw y = sw' y) -> load sw env it = load sw' env it.
Proof.
  intros H. unfold load, load_from, read_sections. erewrite (sections_ext sw sw'); [reflexivity|exact H|]. intros d y. apply sections_ext; [exact H|reflexivity].
Qed.
Lemma load_reader_same (R : reader -> reader -> Prop) env a b : (forall a b, R a b -> fst (reader_next a) = fst (reader_next b) /\ (fst (reader_next a) <> None -> R (snd (reader_next a)) (snd (reader_next b)))) ->
  (forall a b, R a b -> R (read_as_utf8 a) (read_as_utf8 b)) -> R a b -> load (feed_as_utf8 a) env (feed_of a) = load (feed_as_utf8 b) env (feed_of b).
Proof.
  intros N U H. rewrite (feed_same R N U a b H). apply load_ext. intros y. apply (feed_utf8_same R N U a b y H).
Qed.

(** * Text files with the same lines *)
(** Two lines that say the same: as a value exactly, as a code up to blanks. *)
Definition same_line (l l' : bytes) : Prop := forall enc,
  option_map trim (line_text enc (without_mark l)) = option_map trim (line_text enc (without_mark l')) /\ line_text enc l = line_text enc l'.
Definition same_lines (a b : bytes) : Prop := forall n, same_line (nth_line n a) (nth_line n b).
Definition same_text (a b : reader) : Prop :=
  match a, b with
  | CodePairModel.RText x, CodePairModel.RText y => t_enc x = t_enc y /\ t_off x = t_off y /\ option_map trim (t_first x) = option_map trim (t_first y) /\ same_lines (t_rest x) (t_rest y)
  | _, _ => False
  end.
Lemma text_pair_same x y ra rb : t_enc x = t_enc y -> t_off x = t_off y -> t_first x = None -> t_first y = None -> same_lines (t_rest x) (t_rest y) -> trim ra = trim rb ->
  fst (text_pair x ra) = fst (text_pair y rb) /\ same_text (CodePairModel.RText (snd (text_pair x ra))) (CodePairModel.RText (snd (text_pair y rb))).
Proof.
  intros He Ho Fx Fy L T. unfold text_pair. rewrite T, Ho, He. cbn [same_text].
  assert (S0 : t_enc x = t_enc y /\ t_off x = t_off y /\ option_map trim (t_first x) = option_map trim (t_first y) /\ same_lines (t_rest x) (t_rest y)) by (rewrite Fx, Fy; auto).
  destruct (trim rb) as [|c l]; [split; [reflexivity|exact S0]|]. destruct (parse_i32 (c :: l) (t_off y)) as [code|e]; [|split; [reflexivity|exact S0]].
  destruct (read_line_lines false (t_enc y) (t_rest x)) as (r1 & E1 & E1n). rewrite E1.
  destruct (read_line_lines false (t_enc y) (t_rest y)) as (r2 & E2 & E2n). rewrite E2.
  destruct (L O (t_enc y)) as [_ V]. rewrite V.
  assert (L' : same_lines r1 r2) by (intros n; rewrite E1n, E2n; apply L).
  destruct (line_text (t_enc y) (nth_line 0 (t_rest y))) as [vl|]; cbn [res_of_option]; [|cbn [fst snd t_enc t_off t_first t_rest]; auto].
  destruct (expected_type code) as [t|]; cbn [fst snd t_enc t_off t_first t_rest]; auto.
Qed.
Lemma same_text_next a b : same_text a b ->
  fst (reader_next a) = fst (reader_next b) /\ (fst (reader_next a) <> None -> same_text (snd (reader_next a)) (snd (reader_next b))).
Proof.
  destruct a as [x|x], b as [y|y]; try contradiction. intros (He & Ho & Hf & L). cbn [reader_next].
  assert (G : fst (text_next x) = fst (text_next y) /\ same_text (CodePairModel.RText (snd (text_next x))) (CodePairModel.RText (snd (text_next y)))).
  { unfold text_next. destruct (t_first x) as [fx|], (t_first y) as [fy|]; try discriminate Hf.
    - injection Hf as Hf. apply text_pair_same; [exact He|exact Ho|reflexivity|reflexivity|exact L|exact Hf].
    - destruct (read_line_lines true WINDOWS_1252 (t_rest x)) as (r1 & E1 & E1n). rewrite E1.
      destruct (read_line_lines true WINDOWS_1252 (t_rest y)) as (r2 & E2 & E2n). rewrite E2.
      assert (L' : same_lines r1 r2) by (intros n; rewrite E1n, E2n; apply L).
      destruct (L O WINDOWS_1252) as [V _].
      destruct (line_text WINDOWS_1252 (without_mark (nth_line 0 (t_rest x)))) as [ra|], (line_text WINDOWS_1252 (without_mark (nth_line 0 (t_rest y)))) as [rb|];
        cbn [option_map] in V; try discriminate V; cbn [res_of_option].
      + injection V as V. apply text_pair_same; cbn [t_enc t_off t_first t_rest]; [exact He|rewrite Ho; reflexivity|reflexivity|reflexivity|exact L'|exact V].
      + cbn [fst snd same_text t_enc t_off t_first t_rest]. rewrite Ho. auto. }
  destruct (text_next x) as [o1 x'], (text_next y) as [o2 y']. cbn [fst snd] in *. destruct G as [-> G]. split; [reflexivity|intros _; exact G].
Qed.
Lemma same_text_utf8 a b : same_text a b -> same_text (read_as_utf8 a) (read_as_utf8 b).
Proof. destruct a as [x|x], b as [y|y]; try contradiction. intros (He & Ho & Hf & L). cbn [read_as_utf8 same_text t_enc t_off t_first t_rest]. auto. Qed.

(** A text file: neither a binary nor a DXB one. *)
Lemma same_lines_load env enc a b : same_lines a b -> 
  (forall s, line_text enc (without_mark (nth_line 0 a)) = Some s \/ line_text enc (without_mark (nth_line 0 b)) = Some s -> s <> str "AutoCAD Binary DXF" /\ s <> DxbModel.dxb_line) ->
  load_bytes env enc a = load_bytes env enc b.
Proof.
  intros L N. unfold load_bytes, after_dxb_line, open_reader.
  destruct (read_line_lines true enc a) as (r1 & E1 & E1n). rewrite E1.
  destruct (read_line_lines true enc b) as (r2 & E2 & E2n). rewrite E2. destruct (L O enc) as [V _].
  destruct (line_text enc (without_mark (nth_line 0 a))) as [ra|], (line_text enc (without_mark (nth_line 0 b))) as [rb|];
    cbn [option_map] in V; try discriminate V; cbn [res_of_option bind]; [|reflexivity]. injection V as V.
  assert (Q : forall s w, s <> w -> seqb s w = false) by (intros s w H; destruct (seqb s w) eqn:X; [apply seqb_eq in X; contradiction|reflexivity]).
  destruct (N ra (or_introl eq_refl)) as [A1 A2]. destruct (N rb (or_intror eq_refl)) as [B1 B2]. rewrite !(Q _ _ A1), !(Q _ _ A2), !(Q _ _ B1), !(Q _ _ B2). cbn [bind].
  apply (load_reader_same same_text); [exact same_text_next|exact same_text_utf8|]. cbn [same_text t_enc t_off t_first t_rest option_map]. rewrite V.
  do 3 (split; [reflexivity|]). intros n. rewrite E1n, E2n. apply L.
Qed.
Lemma to_unix_same bs : no_double_cr bs = true -> no_utf16 bs -> same_lines bs (to_unix bs).
Proof.
  intros H U n enc. destruct (U n) as [U1 U2]. destruct (to_unix_lines bs H n) as [E|[E L]]; [rewrite E; split; reflexivity|].
  rewrite E in *. rewrite without_mark_cr in *. rewrite utf16_marked_cr in U1, U2. split; [apply line_text_trim_cr; exact U2|apply line_text_cr; assumption].
Qed.
Lemma to_unix_first enc bs s : no_double_cr bs = true -> no_utf16 bs -> (2 <= length s)%nat -> line_text enc (without_mark (nth_line 0 (to_unix bs))) = Some s ->
  line_text enc (without_mark (nth_line 0 bs)) = Some s.
Proof.
  intros H U Ls E. destruct (U O) as [_ U2]. destruct (to_unix_lines bs H O) as [X|[X L]]; [rewrite <- X; exact E|].
  rewrite X in *. rewrite without_mark_cr in *. rewrite utf16_marked_cr in U2.
  destruct (without_mark_last _ L) as [W|W]; [rewrite line_text_cr by assumption; exact E|].
  exfalso. rewrite W in E. assert (X2 : line_text enc [13] = Some []) by (destruct enc; vm_compute; reflexivity). rewrite X2 in E. injection E as <-. cbn [length] in Ls. lia.
Qed.

(** * Plain ASCII in either encoding *)
Definition plain_byte (b : N) : Prop := b < 128 /\ b <> 0x5C.
Lemma read_line_loop_Forall (P : N -> Prop) allow : forall bs skip i l r, read_line_loop allow skip i bs = (l, r) -> Forall P bs -> Forall P l /\ Forall P r.
Proof.
  induction bs as [|b bs IH]; intros skip i l r H F; cbn [read_line_loop] in H; [injection H as <- <-; split; constructor|].
  inversion_clear F as [|? ? F1 F2]. destruct (_ && _); [exact (IH _ _ _ _ H F2)|]. destruct (_ && _); [exact (IH _ _ _ _ H F2)|].
  destruct (b =? 10); [injection H as <- <-; split; [constructor|exact F2]|]. destruct (read_line_loop allow skip (i + 1) bs) as [l' r'] eqn:E. injection H as <- <-.
  destruct (IH _ _ _ _ E F2) as [A B]. split; [constructor; assumption|exact B].
Qed.
Lemma strip_cr_Forall (P : N -> Prop) s : Forall P s -> Forall P (strip_cr s).
Proof.
  intros F. unfold strip_cr. destruct (rev s) as [|c r] eqn:E; [constructor|]. destruct (c =? 13); [|exact F]. apply Forall_rev.
  apply Forall_rev in F. rewrite E in F. inversion_clear F. assumption.
Qed.
Lemma read_line_plain allow bs : Forall plain_byte bs -> exists l r, Forall plain_byte l /\ Forall plain_byte r /\ forall enc, read_line allow enc bs = (Ok l, r).
Proof.
  intros F. unfold read_line. destruct (read_line_loop allow false 0 bs) as [l r] eqn:E. destruct (read_line_loop_Forall _ _ _ _ _ _ _ E F) as [Fl Fr].
  exists (strip_cr l), r. split; [apply strip_cr_Forall, Fl|]. split; [exact Fr|]. intros enc. rewrite decode_ascii; [reflexivity|].
  eapply Forall_impl; [|exact Fl]. intros c Hc. exact (proj1 Hc).
Qed.
Lemma un_escape_plain l : Forall plain_byte l -> un_escape_ascii_to_unicode l = l.
Proof.
  unfold un_escape_ascii_to_unicode. induction 1 as [|c l [_ Hc] _ IH]; [reflexivity|]. cbn [un_escape_ascii_loop].
  unfold backslash. replace (c =? 0x5C) with false by lia. rewrite IH. reflexivity.
Qed.
Definition both_plain (a b : reader) : Prop :=
  match a, b with
  | CodePairModel.RText x, CodePairModel.RText y => t_off x = t_off y /\ t_first x = t_first y /\ t_rest x = t_rest y /\ Forall plain_byte (t_rest x)
  | CodePairModel.RBin x, CodePairModel.RBin y => x = y
  | _, _ => False
  end.
Lemma plain_pair x y raw : t_off x = t_off y -> t_first x = t_first y -> t_rest x = t_rest y -> Forall plain_byte (t_rest x) ->
  fst (text_pair x raw) = fst (text_pair y raw) /\ both_plain (CodePairModel.RText (snd (text_pair x raw))) (CodePairModel.RText (snd (text_pair y raw))).
Proof.
  intros Ho Hf Hr F. unfold text_pair. rewrite Ho.
  assert (S0 : both_plain (CodePairModel.RText x) (CodePairModel.RText y)) by (cbn [both_plain]; auto).
  destruct (trim raw) as [|c l]; [split; [reflexivity|exact S0]|]. destruct (parse_i32 (c :: l) (t_off y)) as [code|e]; [|split; [reflexivity|exact S0]].
  destruct (read_line_plain false (t_rest x) F) as (vl & r & Fl & Fr & E). rewrite <- Hr, !E.
  destruct (expected_type code) as [t|]; cbn [fst snd both_plain t_off t_first t_rest]; [|auto].
  split; [|auto]. f_equal. replace (parse_value (t_enc x) t vl (t_off y + 1)) with (parse_value (t_enc y) t vl (t_off y + 1)); [reflexivity|].
  destruct t; try reflexivity. unfold parse_value. rewrite (un_escape_plain vl Fl). destruct (enc_is_1252 (t_enc x)), (enc_is_1252 (t_enc y)); reflexivity.
Qed.
Lemma plain_next a b : both_plain a b ->
  fst (reader_next a) = fst (reader_next b) /\ (fst (reader_next a) <> None -> both_plain (snd (reader_next a)) (snd (reader_next b))).
Proof.
  destruct a as [x|x], b as [y|y]; try contradiction.
  2:{ cbn [both_plain]. intros ->. cbn [reader_next]. destruct (bin_next y) as [o y']. split; reflexivity. }
  intros (Ho & Hf & Hr & F). cbn [reader_next].
  assert (G : fst (text_next x) = fst (text_next y) /\ both_plain (CodePairModel.RText (snd (text_next x))) (CodePairModel.RText (snd (text_next y)))).
  { unfold text_next. rewrite <- Hf. destruct (t_first x) as [fl|].
    - apply plain_pair; [exact Ho|reflexivity|exact Hr|exact F].
    - destruct (read_line_plain true (t_rest x) F) as (cl & r & Fl & Fr & E). rewrite <- Hr, !E. rewrite Ho. apply plain_pair; [reflexivity|reflexivity|reflexivity|exact Fr]. }
  destruct (text_next x) as [o1 x'], (text_next y) as [o2 y']. cbn [fst snd] in *. destruct G as [-> G]. split; [reflexivity|intros _; exact G].
Qed.
Lemma plain_utf8 a b : both_plain a b -> both_plain (read_as_utf8 a) (read_as_utf8 b).
Proof. destruct a as [x|x], b as [y|y]; try contradiction; cbn [read_as_utf8 both_plain t_off t_first t_rest]; auto. Qed.
Lemma plain_load env enc enc' bs : Forall plain_byte bs -> load_bytes env enc bs = load_bytes env enc' bs.
Proof.
  intros F. unfold load_bytes, after_dxb_line, open_reader. destruct (read_line_plain true bs F) as (l & r & Fl & Fr & E). rewrite !E. cbn [bind].
  destruct (seqb l DxbModel.dxb_line); [reflexivity|]. destruct (seqb l _); [reflexivity|]. cbn [bind].
  apply (load_reader_same both_plain); [exact plain_next|exact plain_utf8|]. cbn [both_plain t_off t_first t_rest]. auto.
Qed.

(** Comments do not change what is loaded. *)
From Verif Require Import Base TextModel TextProofs CodePairModel CodePairProofs CodePairSpec ReaderProofs LineProofs StreamModel DrawingModel FileModel SaveModel BytesProofs CommentSpec.
From Verif Require DxbModel.
Open Scope list_scope.
Open Scope N_scope.
Set Default Goal Selector "!".

Lemma nth_line_0 l w : ~ In 10 l -> (w = [] \/ exists r, w = 10 :: r) -> nth_line 0 (l ++ w) = l.
Proof.
  induction l as [|b l IH]; intros N W; cbn [app].
  - destruct W as [->|[r ->]]; [reflexivity|]. apply (proj1 (nth_line_lf r 0)).
  - unfold nth_line. cbn [lines]. destruct (b =? 10) eqn:E; [exfalso; apply N; left; lia|].
    assert (nth_line 0 (l ++ w) = l) as K by (apply IH; [intros H; apply N; right; exact H|exact W]). unfold nth_line in K. destruct (lines (l ++ w)) as [|x xs] eqn:L; [exfalso; exact (lines_ne _ L)|].
    cbn [nth] in *. rewrite K. reflexivity.
Qed.
Definition after_line (bs : bytes) : bytes := snd (read_line true WINDOWS_1252 bs).
Lemma loop_after allow : forall l skip i r, ~ In 10 l -> snd (read_line_loop allow skip i (l ++ 10 :: r)) = r.
Proof.
  induction l as [|b l IH]; intros skip i r N; cbn [app read_line_loop].
  - replace (10 =? 0xEF) with false by lia. replace (10 =? 0xBB) with false by lia. replace (10 =? 0xBF) with false by lia. rewrite !andb_false_r. reflexivity.
  - assert (~ In 10 l) as N' by (intros H; apply N; right; exact H). destruct (_ && _); [apply IH, N'|]. destruct (_ && _); [apply IH, N'|].
    destruct (b =? 10) eqn:E; [exfalso; apply N; left; lia|]. specialize (IH skip (i + 1) r N'). destruct (read_line_loop allow skip (i + 1) (l ++ 10 :: r)) as [x y]. cbn [snd] in *. exact IH.
Qed.
Lemma loop_last allow : forall l skip i, ~ In 10 l -> snd (read_line_loop allow skip i l) = [].
Proof.
  induction l as [|b l IH]; intros skip i N; cbn [read_line_loop]; [reflexivity|].
  assert (~ In 10 l) as N' by (intros H; apply N; right; exact H). destruct (_ && _); [apply IH, N'|]. destruct (_ && _); [apply IH, N'|].
  destruct (b =? 10) eqn:E; [exfalso; apply N; left; lia|]. specialize (IH skip (i + 1) N'). destruct (read_line_loop allow skip (i + 1) l) as [x y]. cbn [snd] in *. exact IH.
Qed.
Lemma read_line_exact allow enc l w : ~ In 10 l -> (w = [] \/ exists r, w = 10 :: r) ->
  read_line allow enc (l ++ w) = (res_of_option (line_text enc (if allow then without_mark l else l)), tl w).
Proof.
  intros N W. destruct (read_line_lines allow enc (l ++ w)) as (r & E & _). rewrite (nth_line_0 l w N W) in E. rewrite E. f_equal.
  assert (r = snd (read_line allow enc (l ++ w))) as -> by (rewrite E; reflexivity). unfold read_line. destruct W as [->|[q ->]].
  - rewrite app_nil_r. pose proof (loop_last allow l false 0 N) as L. destruct (read_line_loop allow false 0 l) as [x y]. exact L.
  - pose proof (loop_after allow l false 0 q N) as L. destruct (read_line_loop allow false 0 (l ++ 10 :: q)) as [x y]. exact L.
Qed.
Lemma parse_hex_any o o' : forall s b x v, parse_hex_loop b x s o = Ok v -> parse_hex_loop b x s o' = Ok v.
Proof.
  induction s as [|c s IH]; intros b x v H; cbn [parse_hex_loop] in *; [exact H|]. destruct (hex_value c) as [y|]; [|discriminate H]. destruct b; [|exact (IH _ _ _ H)].
  destruct (parse_hex_loop false x s o) as [r|] eqn:E; [|discriminate H]. rewrite (IH _ _ _ E). exact H.
Qed.
Lemma parse_value_any enc t s o o' v : parse_value enc t s o = Ok v -> parse_value enc t s o' = Ok v.
Proof.
  destruct t; cbn [parse_value]; try (intros H; exact H).
  all: try solve [unfold parse_hex_string; destruct (parse_hex_loop _ _ s o) as [b|] eqn:E; [|discriminate]; rewrite (parse_hex_any _ o' _ _ _ _ E); intros H; exact H].
  all: unfold parse_i16, parse_i32, parse_i64, parse_f64.
  all: repeat match goal with |- context [match ?x with _ => _ end] => destruct x eqn:?; cbn [bind] end; congruence.
Qed.

(** A reader that stands at the beginning of [bs]; the first line of a file has been read already. *)
Definition at_file (enc : encoding) (bs : bytes) (rd : reader) : Prop := exists r f o, rd = CodePairModel.RText (mk_text r enc f o) /\
  ((f = None /\ r = bs) \/ exists s e, f = Some s /\ line_text e (without_mark (nth_line 0 bs)) = Some s /\ r = after_line bs).
Lemma at_utf8 enc bs rd : at_file enc bs rd -> at_file UTF_8 bs (read_as_utf8 rd).
Proof. intros (r & f & o & -> & H). exists r, f, o. split; [reflexivity|exact H]. Qed.

Lemma trim_code s z : parse_i32 s 0 = Ok z -> trim s <> [] /\ forall o, parse_i32 (trim s) o = Ok z.
Proof.
  intros H. split; [|intros o; exact (trim_blank s s 0 z eq_refl H o)]. intros E. unfold parse_i32 in H. rewrite E in H. vm_compute in H. discriminate H.
Qed.
Lemma pair_read enc c v w p f o s : pair_lines enc c v p -> one_line v -> (w = [] \/ exists r, w = 10 :: r) -> f = None -> parse_i32 s 0 = Ok (p_code p) ->
  exists o1 o2, text_pair (mk_text (v ++ w) enc f o) s = (Some (Ok (p, o1)), mk_text (tl w) enc None o2).
Proof.
  intros (_ & x & t & V & T & P) N W -> C. destruct (trim_code s _ C) as [Q Z]. unfold text_pair. destruct (trim s) as [|b l] eqn:E; [contradiction Q; reflexivity|]. rewrite Z. cbn [t_enc t_rest t_off].
  rewrite (read_line_exact false enc v w N W), V. cbn [res_of_option]. rewrite T, (parse_value_any _ _ _ 0 _ _ P). cbn [bind]. do 2 eexists. destruct p; reflexivity.
Qed.
Lemma next_good enc c v w p rd : one_line c -> one_line v -> pair_lines enc c v p -> (w = [] \/ exists r, w = 10 :: r) -> at_file enc (c ++ 10 :: v ++ w) rd ->
  exists o rd', reader_next rd = (Some (Ok (p, o)), rd') /\ at_file enc (tl w) rd'.
Proof.
  intros Nc Nv P W (r & f & o & -> & H). cbn [reader_next text_next t_first t_rest t_enc t_off].
  assert (10 :: v ++ w = [] \/ exists r, 10 :: v ++ w = 10 :: r) as Wc by (right; eexists; reflexivity).
  destruct H as [[-> ->]|(s & e & -> & E & ->)].
  - unfold text_next. cbn [t_first t_rest t_enc t_off]. rewrite (read_line_exact true WINDOWS_1252 c _ Nc Wc). destruct (proj1 P WINDOWS_1252) as (s & L & C). rewrite L. cbn [res_of_option tl].
    destruct (pair_read enc c v w p None (o + 1) s P Nv W eq_refl C) as (o1 & o2 & R). rewrite R. exists o1, (CodePairModel.RText (mk_text (tl w) enc None o2)). split; [reflexivity|].
    exists (tl w), None, o2. split; [reflexivity|left; split; reflexivity].
  - rewrite (nth_line_0 c _ Nc Wc) in E. destruct (proj1 P e) as (s' & L & C). rewrite L in E. injection E as ->. unfold text_next, after_line. cbn [t_first t_rest t_enc t_off]. rewrite (read_line_exact true WINDOWS_1252 c _ Nc Wc). cbn [snd tl].
    destruct (pair_read enc c v w p None o s P Nv W eq_refl C) as (o1 & o2 & R). rewrite R. exists o1, (CodePairModel.RText (mk_text (tl w) enc None o2)). split; [reflexivity|].
    exists (tl w), None, o2. split; [reflexivity|left; split; reflexivity].
Qed.
Lemma no_more_text a e : no_more a -> line_text e (without_mark (nth_line 0 a)) = Some [].
Proof.
  intros [->|H]; [destruct e; reflexivity|]. destruct a as [|b a]; [destruct e; reflexivity|]. cbn [hd] in H. subst b. rewrite (proj1 (nth_line_lf a 0)). destruct e; reflexivity.
Qed.
Lemma next_none enc a rd : no_more a -> at_file enc a rd -> fst (reader_next rd) = None.
Proof.
  intros N (r & f & o & -> & H). cbn [reader_next text_next t_first t_rest t_enc t_off]. destruct H as [[-> ->]|(s & e & -> & E & ->)].
  - unfold text_next. cbn [t_first t_rest t_enc t_off]. destruct (read_line_lines true WINDOWS_1252 a) as (r & -> & _). rewrite (no_more_text a _ N). reflexivity.
  - rewrite (no_more_text a _ N) in E. injection E as <-. reflexivity.
Qed.
Lemma ascii_line e l : Forall (fun b => b < 128) l -> exists s, line_text e l = Some s.
Proof. intros F. unfold line_text. rewrite (decode_ascii e l F). eexists. reflexivity. Qed.
Lemma comment_lines enc c v : comment c v -> one_line c /\ one_line v /\ exists s, pair_lines enc c v (mk_pair 999 (VStr s)).
Proof.
  intros (Nv & (n & w & -> & W) & A). assert (Forall (fun b => b < 128 /\ b <> 10) (repeat 32 n ++ str "999" ++ w)) as F.
  { apply Forall_app. split; [apply Forall_forall; intros x Hx; apply repeat_spec in Hx; subst x; lia|]. apply Forall_app. split; [apply Forall_forall; intros x Hx; vm_compute in Hx; repeat (destruct Hx as [<-|Hx]; [lia|]); destruct Hx|]. destruct W as [->| ->]; [apply Forall_nil|]. apply Forall_cons; [lia|apply Forall_nil]. }
  split; [intros H; rewrite Forall_forall in F; specialize (F _ H); lia|]. split; [exact Nv|].
  destruct (ascii_line enc v A) as (x & V).
  exists (un_escape_string (if enc_is_1252 enc then un_escape_ascii_to_unicode x else x)). split.
  - intros e. rewrite without_mark_other by (destruct n; cbn [repeat app hd]; vm_compute; discriminate). unfold line_text. rewrite decode_ascii by (eapply Forall_impl; [|exact F]; cbn; lia).
    exists (repeat 32 n ++ str "999"). split.
    + cbn [option_map]. f_equal. unfold strip_cr. destruct W as [->| ->]; rewrite ?app_nil_r.
      * rewrite rev_app_distr. reflexivity.
      * rewrite app_assoc, rev_app_distr. cbn [rev app]. change (13 =? 13) with true. cbv iota. apply rev_involutive.
    + pose proof (parse_i32_show (repeat 32 n) [] 999 0) as Q. rewrite app_nil_r in Q. apply Q; [|apply Forall_nil]. apply Forall_forall. intros y Hy. apply repeat_spec in Hy. subst y. reflexivity.
  - exists x, TStr. split; [exact V|]. split; reflexivity.
Qed.

(** * Loading *)
Lemma next_pair_commented enc a b : commented_file a b -> forall ra rb f g, at_file enc a ra -> at_file enc b rb -> (remaining ra < f)%nat -> (remaining rb < g)%nat ->
  (fst (next_pair f ra) = None /\ fst (next_pair g rb) = None) \/
  exists p a' b' ra' rb', next_pair f ra = (Some (Ok p), ra') /\ next_pair g rb = (Some (Ok p), rb') /\ commented_file a' b' /\ at_file enc a' ra' /\ at_file enc b' rb'.
Proof.
  assert (forall c v w p rd f, one_line c -> one_line v -> pair_lines enc c v p -> (w = [] \/ exists r, w = 10 :: r) -> at_file enc (c ++ 10 :: v ++ w) rd -> (remaining rd < f)%nat ->
    exists rd' f', at_file enc (tl w) rd' /\ (remaining rd' < f')%nat /\ next_pair f rd = if (p_code p =? 999)%Z then next_pair f' rd' else (Some (Ok p), rd')) as Step.
  { intros c v w p rd f Nc Nv P W A L. destruct (next_good enc c v w p rd Nc Nv P W A) as (o & rd' & E & A'). destruct f as [|f]; [lia|]. pose proof (reader_next_some _ _ _ E). exists rd', f. split; [exact A'|]. split; [lia|].
    cbn [next_pair]. rewrite E. reflexivity. }
  assert (forall a rd f, no_more a -> at_file enc a rd -> (remaining rd < f)%nat -> fst (next_pair f rd) = None) as Last.
  { intros x rd f N A L. destruct f as [|f]; [lia|]. cbn [next_pair]. pose proof (next_none enc x rd N A) as E. destruct (reader_next rd) as [y rd']. cbn [fst] in E. subst y. reflexivity. }
  induction 1 as [a N|c v (Nc & Nv & R)|c v a b (Nc & Nv & R) H IH|c v a b C H IH]; intros ra rb f g Aa Ab La Lb.
  - left. split; [exact (Last _ _ _ N Aa La)|exact (Last _ _ _ N Ab Lb)].
  - destruct (R enc) as (p & P). pose proof (app_nil_r v) as V. rewrite <- V in Aa, Ab.
    destruct (Step c v [] p ra f Nc Nv P (or_introl eq_refl) Aa La) as (ra' & f' & Aa' & La' & Ea). destruct (Step c v [] p rb g Nc Nv P (or_introl eq_refl) Ab Lb) as (rb' & g' & Ab' & Lb' & Eb).
    cbn [tl] in Aa', Ab'. rewrite Ea, Eb. assert (no_more []) as N by (left; reflexivity). destruct (p_code p =? 999)%Z; [left; split; [exact (Last _ _ _ N Aa' La')|exact (Last _ _ _ N Ab' Lb')]|].
    right. exists p, [], [], ra', rb'. split; [reflexivity|]. split; [reflexivity|]. split; [constructor; exact N|]. split; assumption.
  - destruct (R enc) as (p & P).
    destruct (Step c v (10 :: a) p ra f Nc Nv P (or_intror (ex_intro _ a eq_refl)) Aa La) as (ra' & f' & Aa' & La' & Ea).
    destruct (Step c v (10 :: b) p rb g Nc Nv P (or_intror (ex_intro _ b eq_refl)) Ab Lb) as (rb' & g' & Ab' & Lb' & Eb).
    cbn [tl] in Aa', Ab'. rewrite Ea, Eb. destruct (p_code p =? 999)%Z; [exact (IH _ _ _ _ Aa' Ab' La' Lb')|].
    right. exists p, a, b, ra', rb'. split; [reflexivity|]. split; [reflexivity|]. split; [exact H|]. split; assumption.
  - destruct (comment_lines enc c v C) as (Nc & Nv & s & P). destruct (Step c v (10 :: b) _ rb g Nc Nv P (or_intror (ex_intro _ b eq_refl)) Ab Lb) as (rb' & g' & Ab' & Lb' & Eb).
    cbn [tl p_code Z.eqb Pos.eqb] in *. rewrite Eb. exact (IH _ _ _ _ Aa Ab' La Lb').
Qed.
Definition stand_at (enc : encoding) (x y : reader) : Prop := exists a b, commented_file a b /\ at_file enc a x /\ at_file enc b y.
Lemma trace_commented enc : forall f ra rb, stand_at enc ra rb -> (remaining ra < f)%nat -> (remaining rb < f)%nat ->
  Forall2 (fun x y => stand_at enc (fst x) (fst y) /\ snd x = snd y) (trace f ra) (trace f rb).
Proof.
  induction f as [|f IH]; intros ra rb St La Lb; [lia|].
  change (trace (S f) ra) with (match next_pair (S f) ra with (None, _) => [] | (Some x, rd') => (ra, x) :: trace f rd' end).
  change (trace (S f) rb) with (match next_pair (S f) rb with (None, _) => [] | (Some x, rd') => (rb, x) :: trace f rd' end).
  pose proof St as (a & b & H & Aa & Ab). destruct (next_pair_ends (S f) ra La) as [Ka _]. destruct (next_pair_ends (S f) rb Lb) as [Kb _].
  destruct (next_pair_commented enc a b H ra rb (S f) (S f) Aa Ab La Lb) as [[Ea Eb]|(p & a' & b' & ra' & rb' & Ea & Eb & H' & Aa' & Ab')].
  - destruct (next_pair (S f) ra) as [x ra'], (next_pair (S f) rb) as [y rb']. cbn [fst] in Ea, Eb. subst x y. constructor.
  - rewrite Ea in *. rewrite Eb in *. constructor; [split; [exact St|reflexivity]|]. apply IH; [exists a', b'; auto|lia|lia].
Qed.
Lemma full_trace_commented enc ra rb : stand_at enc ra rb -> Forall2 (fun x y => stand_at enc (fst x) (fst y) /\ snd x = snd y) (trace (reader_fuel ra) ra) (trace (reader_fuel rb) rb).
Proof.
  intros H. set (f := S (remaining ra + remaining rb)). destruct (trace_ends _ ra (reader_fuel_enough ra)) as [_ A]. destruct (trace_ends _ rb (reader_fuel_enough rb)) as [_ B].
  rewrite <- (A f), <- (B f) by lia. apply trace_commented; [exact H|lia|lia].
Qed.
Lemma feed_commented enc ra rb : stand_at enc ra rb -> feed_of ra = feed_of rb.
Proof. intros H. unfold feed_of. apply full_trace_commented in H. induction H as [|x y l l' [_ E] _ IH]; [reflexivity|]. cbn [map]. rewrite E, IH. reflexivity. Qed.
Lemma feed_utf8_commented enc ra rb it : stand_at enc ra rb -> feed_as_utf8 ra it = feed_as_utf8 rb it.
Proof.
  intros H. apply full_trace_commented in H. unfold feed_as_utf8. cbv zeta.
  assert (L : length (trace (reader_fuel ra) ra) = length (trace (reader_fuel rb) rb)) by (clear - H; induction H; cbn [length]; congruence). rewrite L.
  generalize (length (trace (reader_fuel rb) rb) - length it)%nat. clear L. induction H as [|x y l l' [E _] _ IH]; intros n; [destruct n; reflexivity|].
  destruct n as [|n]; cbn [nth_error]; [|apply IH]. destruct x as [x x'], y as [y y']. cbn [fst] in E. destruct E as (a & b & C & Aa & Ab). apply (feed_commented UTF_8). exists a, b. split; [exact C|]. split; eapply at_utf8; eassumption.
Qed.
Lemma text_start a b : commented_file a b -> forall bs, bs = a \/ bs = b -> forall e, exists s, line_text e (without_mark (nth_line 0 bs)) = Some s /\ s <> str "AutoCAD Binary DXF" /\ s <> DxbModel.dxb_line.
Proof.
  assert (forall c w e s z, one_line c -> line_text e (without_mark c) = Some s -> parse_i32 s 0 = Ok z ->
    exists s, line_text e (without_mark (nth_line 0 (c ++ 10 :: w))) = Some s /\ s <> str "AutoCAD Binary DXF" /\ s <> DxbModel.dxb_line) as K.
  { intros c w e s z N L P. exists s. rewrite (nth_line_0 c _ N) by (right; eexists; reflexivity). split; [exact L|]. split; intros ->; vm_compute in P; discriminate P. }
  assert (forall c v w e, readable c v -> exists s, line_text e (without_mark (nth_line 0 (c ++ 10 :: w))) = Some s /\ s <> str "AutoCAD Binary DXF" /\ s <> DxbModel.dxb_line) as G.
  { intros c v w e (N & _ & R). destruct (R e) as (p & P & _). destruct (P e) as (s & L & C). exact (K c w e s _ N L C). }
  induction 1 as [a N|c v R|c v a b R H IH|c v a b C H IH]; intros bs Q e.
  - assert (bs = a) as -> by (destruct Q; assumption). exists []. split; [exact (no_more_text a e N)|]. split; discriminate.
  - assert (bs = c ++ 10 :: v) as -> by (destruct Q; assumption). exact (G c v v e R).
  - destruct Q as [->| ->]; exact (G c v _ e R).
  - destruct Q as [->| ->]; [exact (IH a (or_introl eq_refl) e)|]. destruct (comment_lines e c v C) as (N & _ & s & P & _). destruct (P e) as (x & L & Z). exact (K c _ e x _ N L Z).
Qed.
Lemma commented_load env enc a b : commented_file a b -> load_bytes env enc a = load_bytes env enc b.
Proof.
  intros H. assert (forall s w, s <> w -> seqb s w = false) as Q by (intros s w N; destruct (seqb s w) eqn:X; [apply seqb_eq in X; contradiction|reflexivity]).
  assert (forall bs, bs = a \/ bs = b -> after_dxb_line enc bs = None /\ exists rd, open_reader enc bs = Ok rd /\ at_file enc bs rd) as O.
  { intros bs E. destruct (text_start a b H bs E enc) as (s & L & N1 & N2). unfold after_dxb_line, open_reader. destruct (read_line_lines true enc bs) as (r & R & _). rewrite R, L. cbn [res_of_option bind].
    rewrite (Q _ _ N1), (Q _ _ N2). split; [reflexivity|]. eexists. split; [reflexivity|]. exists r, (Some s), 1. split; [reflexivity|]. right. exists s, enc. split; [reflexivity|]. split; [exact L|].
    assert (r = snd (read_line true enc bs)) as -> by (rewrite R; reflexivity). unfold after_line, read_line. destruct (read_line_loop true false 0 bs). reflexivity. }
  destruct (O a (or_introl eq_refl)) as (Da & ra & Ra & Aa). destruct (O b (or_intror eq_refl)) as (Db & rb & Rb & Ab). unfold load_bytes. rewrite Da, Db, Ra, Rb. cbn [bind].
  assert (stand_at enc ra rb) as St by (exists a, b; auto). rewrite (feed_commented enc ra rb St). apply load_ext. intros y. exact (feed_utf8_commented enc ra rb y St).
Qed.

(** Readers do not look beyond what they take: two inputs that agree up to some point are read alike as long as the reader stays before it.
    The second input may be longer behind that point (the fuel of the model depends on the length). *)
From Verif Require Import Base CodePairModel CodePairProofs ReaderProofs VersionModel ExtDataModel SpecModel SpecSpec TableData EntityData ObjectData SectionData HeaderModel HeaderData CustomModel ThumbnailModel
  DrawingModel FileModel LoadProofs.
Open Scope string_scope.
Open Scope list_scope.
Open Scope Z_scope.
Set Default Goal Selector "!".

(** The reader has gone into [t], or has at least looked at it. *)
Definition touched {A} (t : feed) (m : res (A * feed)) : Prop :=
  match m with Ok (_, r) => t <> [marker] /\ tail_of r t | Err e => t = [marker] -> e = OutOfFuel end.
Definition sim {A} (q t t' : feed) (m m' : res (A * feed)) : Prop :=
  (exists x s, tail_of s q /\ m = Ok (x, s ++ t) /\ m' = Ok (x, s ++ t')) \/ (exists e, m = Err e /\ m' = Err e) \/ touched t m.
Definition local {A} (f f' : feed -> res (A * feed)) : Prop := forall q t t', (length t <= length t')%nat -> sim q t t' (f (q ++ t)) (f' (q ++ t')).

Lemma local_tail {A} (f f' : feed -> res (A * feed)) : local f f' -> forall it x r, f it = Ok (x, r) -> tail_of r it.
Proof.
  intros L it x r H. destruct (L [] it it (le_n _)) as [(y & s & T & E & _)|[(e & E & _)|E]]; cbn [app] in E; rewrite H in E; [|discriminate E|exact (proj2 E)].
  injection E as _ ->. destruct T as [[|? ?] T]; [|discriminate T]. cbn [app] in T. subst s. apply tail_refl.
Qed.
Lemma sim_err {A} q t t' e : @sim A q t t' (Err e) (Err e).
Proof. right; left. exists e. split; reflexivity. Qed.
Lemma sim_fuel {A} q t t' (m : res (A * feed)) : sim q t t' (Err OutOfFuel) m.
Proof. right; right. intros _. reflexivity. Qed.
Lemma sim_ok {A} (x : A) q t t' : sim q t t' (Ok (x, q ++ t)) (Ok (x, q ++ t')).
Proof. left. exists x, q. split; [apply tail_refl|]. split; reflexivity. Qed.
Lemma sim_back {A} (x : A) p q t t' : sim (p :: q) t t' (Ok (x, p :: q ++ t)) (Ok (x, p :: q ++ t')).
Proof. exact (sim_ok x (p :: q) t t'). Qed.
Lemma sim_cons {A} p q t t' (m m' : res (A * feed)) : sim q t t' m m' -> sim (p :: q) t t' m m'.
Proof. intros [(x & s & T & E)|H]; [left; exists x, s; split; [apply tail_cons, T|exact E]|right; exact H]. Qed.
Lemma sim_bind {A B} q t t' (m m' : res (A * feed)) (k k' : A * feed -> res (B * feed)) : (length t <= length t')%nat ->
  sim q t t' m m' -> (forall a, local (fun r => k (a, r)) (fun r => k' (a, r))) -> sim q t t' (bind m k) (bind m' k').
Proof.
  intros L [(x & s & T & -> & ->)|[(e & -> & ->)|H]] K; cbn [bind]; [|apply sim_err|].
  - destruct (K x s t t' L) as [(y & u & U & E & E')|[E|E]]; [left; exists y, u; split; [exact (tail_trans _ _ _ U T)|split; assumption]|right; left; exact E|right; right; exact E].
  - destruct m as [[x r]|e]; cbn [bind]; [|right; right; exact H]. destruct H as [N T]. right; right. unfold touched. destruct (k (x, r)) as [[y u]|e] eqn:E; [|intros X; contradiction].
    split; [exact N|]. exact (tail_trans _ _ _ (local_tail _ _ (K x) r y u E) T).
Qed.
Lemma sim_plain {A B} q t t' (m : res A) (k k' : A -> res (B * feed)) : (forall a, m = Ok a -> sim q t t' (k a) (k' a)) -> sim q t t' (bind m k) (bind m k').
Proof. intros K. destruct m as [a|e]; cbn [bind]; [apply K; reflexivity|apply sim_err]. Qed.
Lemma local_ret {A} (x : A) : local (fun r => Ok (x, r)) (fun r => Ok (x, r)).
Proof. intros q t t' _. apply sim_ok. Qed.
Lemma local_err {A} e : @local A (fun _ => Err e) (fun _ => Err e).
Proof. intros q t t' _. apply sim_err. Qed.
Lemma local_fuel {A} (f : feed -> res (A * feed)) : local (fun _ => Err OutOfFuel) f.
Proof. intros q t t' _. apply sim_fuel. Qed.
Lemma local_plain {A B} (m : res A) (k k' : A -> feed -> res (B * feed)) : (forall a, m = Ok a -> local (k a) (k' a)) -> local (fun r => bind m (fun a => k a r)) (fun r => bind m (fun a => k' a r)).
Proof. intros K q t t' L. apply sim_plain. intros a Ha. exact (K a Ha q t t' L). Qed.
Lemma local_bind {A B} (m m' : feed -> res (A * feed)) (k k' : A * feed -> res (B * feed)) : local m m' -> (forall a, local (fun r => k (a, r)) (fun r => k' (a, r))) ->
  local (fun r => bind (m r) k) (fun r => bind (m' r) k').
Proof. intros M K q t t' L. apply sim_bind; [exact L|exact (M q t t' L)|exact K]. Qed.
(** Readers that give the rest only. *)
Definition only (m : res feed) : res (unit * feed) := let? r := m in Ok (tt, r).
Lemma sim_bind_only {B} q t t' (m m' : res feed) (k k' : feed -> res (B * feed)) : (length t <= length t')%nat -> sim q t t' (only m) (only m') -> local k k' -> sim q t t' (bind m k) (bind m' k').
Proof.
  intros L S K. replace (bind m k) with (bind (only m) (fun x => k (snd x))) by (destruct m; reflexivity). replace (bind m' k') with (bind (only m') (fun x => k' (snd x))) by (destruct m'; reflexivity).
  apply sim_bind; [exact L|exact S|]. intros [] . exact K.
Qed.
Lemma local_bind_only {B} (m m' : feed -> res feed) (k k' : feed -> res (B * feed)) : local (fun r => only (m r)) (fun r => only (m' r)) -> local k k' -> local (fun r => bind (m r) k) (fun r => bind (m' r) k').
Proof. intros M K q t t' L. apply sim_bind_only; [exact L|exact (M q t t' L)|exact K]. Qed.

(** Readers that start by taking or looking at a pair. *)
Definition nil_ok {A} (m : res (A * feed)) : Prop := match m with Ok (_, r) => r = [] | Err _ => True end.
Lemma local_rec {X A} (f f' : X -> feed -> res (A * feed)) : (forall x, nil_ok (f x [])) -> (forall x e r, f x (Err e :: r) = Err e /\ f' x (Err e :: r) = Err e) ->
  (forall x p q t t', (length t <= length t')%nat ->
    (forall x0 q0 t0 t0', (length (q0 ++ t0) <= length (q ++ t))%nat -> (length t0 <= length t0')%nat -> sim q0 t0 t0' (f x0 (q0 ++ t0)) (f' x0 (q0 ++ t0'))) ->
    sim (Ok p :: q) t t' (f x (Ok p :: q ++ t)) (f' x (Ok p :: q ++ t'))) -> forall x, local (f x) (f' x).
Proof.
  intros N E H. assert (forall n x q t t', (length (q ++ t) <= n)%nat -> (length t <= length t')%nat -> sim q t t' (f x (q ++ t)) (f' x (q ++ t'))) as G.
  { induction n as [|n IH]; intros x q t t' Ln L.
    - destruct q as [|a q]; [|cbn [app length] in Ln; lia]. destruct t as [|a t]; [|cbn [app length] in Ln; lia]. right; right. cbn [app]. specialize (N x). destruct (f x []) as [[y r]|e]; cbn [nil_ok touched] in *; [|discriminate].
      subst r. split; [discriminate|apply tail_refl].
    - destruct q as [|[p|e] q]; cbn [app].
      + right; right. destruct t as [|[p|e] t].
        * specialize (N x). destruct (f x []) as [[y r]|e]; cbn [nil_ok touched] in *; [|discriminate]. subst r. split; [discriminate|apply tail_refl].
        * cbn [app length] in Ln. destruct (H x p [] t t (le_n _)) as [(y & s & T & Q & _)|[(e & Q & _)|Q]].
          { intros x0 q0 t0 t0' L0 L1. apply IH; [cbn [app] in L0; lia|exact L1]. }
          { cbn [app] in Q. rewrite Q. cbn [touched]. split; [discriminate|]. destruct T as [pre T]. exists pre. rewrite app_assoc, <- T. reflexivity. }
          { cbn [app] in Q. rewrite Q. cbn [touched]. discriminate. }
          { cbn [app] in Q. unfold touched in *. destruct (f x (Ok p :: t)) as [[y r]|e]; [|discriminate]. split; [discriminate|]. apply tail_cons. exact (proj2 Q). }
        * rewrite (proj1 (E x e t)). cbn [touched]. intros Y. injection Y as -> _. reflexivity.
      + apply H; [exact L|]. intros x0 q0 t0 t0' L0 L1. apply IH; [cbn [app length] in Ln; lia|exact L1].
      + rewrite (proj1 (E x e _)), (proj2 (E x e _)). apply sim_err. }
  intros x q t t' L. exact (G _ x q t t' (le_n _) L).
Qed.
Lemma local_intro {A} (f f' : feed -> res (A * feed)) : nil_ok (f []) -> (forall e r, f (Err e :: r) = Err e /\ f' (Err e :: r) = Err e) ->
  (forall p q t t', (length t <= length t')%nat -> sim (Ok p :: q) t t' (f (Ok p :: q ++ t)) (f' (Ok p :: q ++ t'))) -> local f f'.
Proof. intros N E H. exact (local_rec (fun _ : unit => f) (fun _ => f') (fun _ => N) (fun _ => E) (fun _ p q t t' L _ => H p q t t' L) tt). Qed.
Lemma length_le (q t t' : feed) : (length t <= length t')%nat -> (length (q ++ t) <= length (q ++ t'))%nat.
Proof. intros L. rewrite !app_length. lia. Qed.
Ltac start := apply local_intro; [first [exact Logic.I|reflexivity]|intros; split; reflexivity|]; intros p q t t' L.

(** * Extension data *)
Lemma ext_items_local : forall f f', (f <= f')%nat -> local (read_ext_items f) (read_ext_items f').
Proof.
  induction f as [|f IH]; intros f' Lf; [apply local_fuel|]. destruct f' as [|f']; [lia|]. specialize (IH f' ltac:(lia)). start. cbn [read_ext_items]. apply sim_cons. destruct (p_code p =? 102).
  - apply sim_plain. intros s _. destruct (seqb s close_brace); [apply sim_ok|]. destruct s as [|c name]; [apply sim_err|]. destruct (c =? open_brace)%N; [|apply sim_err].
    apply sim_bind; [exact L|apply IH, L|]. intros sub. apply local_bind; [exact IH|]. intros items. apply local_ret.
  - apply sim_bind; [exact L|apply IH, L|]. intros items. apply local_ret.
Qed.
Lemma ext_local name : local (read_ext_group name) (read_ext_group name).
Proof.
  intros q t t' L. unfold read_ext_group. destruct name as [|c n]; [apply sim_err|]. destruct (c =? open_brace)%N; [|apply sim_err].
  apply sim_bind; [exact L|apply ext_items_local; [pose proof (length_le q t t' L); lia|exact L]|]. intros items. apply local_ret.
Qed.
Lemma double_local c : local (fun it => read_double it c) (fun it => read_double it c).
Proof. start. cbn [read_double]. apply sim_cons. destruct (p_code p =? c); [|apply sim_err]. apply sim_plain. intros a _. apply sim_ok. Qed.
Lemma three_local d c : local (fun it => read_three d it c) (fun it => read_three d it c).
Proof.
  intros q t t' L. unfold read_three. apply sim_bind; [exact L|apply double_local, L|]. intros y. apply local_bind; [apply double_local|]. intros z. apply local_ret.
Qed.
Lemma xitem_local : forall f, (forall f', (f <= f')%nat -> forall p, local (read_xitem f p) (read_xitem f' p)) /\ (forall f', (f <= f')%nat -> local (read_xgroup f) (read_xgroup f')).
Proof.
  induction f as [|f [IH1 IH2]]; [split; intros; apply local_fuel|]. split; intros f' Lf; (destruct f' as [|f']; [lia|]); specialize (IH1 f' ltac:(lia)); specialize (IH2 f' ltac:(lia)).
  - intros p q t t' L. cbn [read_xitem].
    repeat match goal with |- sim _ _ _ (if ?c =? ?z then _ else _) _ => destruct (c =? z) end; try (apply sim_plain; intros ? _; try apply sim_ok).
    all: try (apply sim_bind; [exact L|apply three_local, L|]; intros [[x y] z]; apply local_ret).
    + apply sim_bind; [exact L|apply IH2, L|]. intros items. apply local_ret.
    + apply sim_plain. intros ? _. apply sim_ok.
    + apply sim_err.
  - start. cbn [read_xgroup]. apply sim_cons. destruct (p_code p <? 1000); [apply sim_err|]. apply sim_plain. intros [|] _; [apply sim_ok|].
    apply sim_bind; [exact L|apply IH1, L|]. intros i. apply local_bind; [exact IH2|]. intros items. apply local_ret.
Qed.
Lemma xitems_local : forall f f', (f <= f')%nat -> local (read_xitems f) (read_xitems f').
Proof.
  induction f as [|f IH]; intros f' Lf; [apply local_fuel|]. destruct f' as [|f']; [lia|]. specialize (IH f' ltac:(lia)). start. cbn [read_xitems].
  destruct ((p_code p =? 0) || (p_code p =? 1001) || (p_code p <? 1000)); [apply sim_back|]. apply sim_cons.
  apply sim_bind; [exact L|apply xitem_local; [pose proof (length_le q t t' L); lia|exact L]|]. intros i. apply local_bind; [exact IH|]. intros items. apply local_ret.
Qed.
Lemma xdata_local name : local (read_xdata name) (read_xdata name).
Proof. intros q t t' L. unfold read_xdata. apply sim_bind; [exact L|apply xitems_local; [pose proof (length_le q t t' L); lia|exact L]|]. intros items. apply local_ret. Qed.

(** * The interpreter *)
Lemma act_local a p st regs : local (act a p st regs) (act a p st regs).
Proof.
  intros q t t' L. destruct a; cbn [act].
  - apply sim_plain. intros. apply sim_ok.
  - apply sim_plain. intros. apply sim_ok.
  - apply sim_plain. intros. apply sim_ok.
  - apply sim_plain. intros x _. apply sim_plain. intros. apply sim_ok.
  - apply sim_plain. intros. apply sim_ok.
  - apply sim_plain. intros name _. apply sim_bind; [exact L|apply ext_local, L|]. intros g. apply local_ret.
  - apply sim_plain. intros name _. apply sim_bind; [exact L|apply xdata_local, L|]. intros g. apply local_ret.
  - apply sim_ok.
  - apply sim_ok.
  - apply sim_plain. intros name _. destruct (mark _ _ _); apply sim_ok.
  - apply sim_err.
Qed.
Lemma acts_local l p : forall st regs, local (acts l p st regs) (acts l p st regs).
Proof.
  induction l as [|a l IH]; intros st regs q t t' L; cbn [acts]; [apply sim_ok|]. apply sim_bind; [exact L|apply act_local, L|]. intros [st' regs']. apply IH.
Qed.
Lemma step_local arms p st regs : local (step arms p st regs) (step arms p st regs).
Proof. intros q t t' L. unfold step. destruct (find_arm arms (p_code p) regs) as [l|]; [|apply sim_ok]. apply acts_local, L. Qed.
Lemma run_local arms eof : forall f f' st regs, (f <= f')%nat -> local (fun it => run arms eof f it st regs) (fun it => run arms eof f' it st regs).
Proof.
  induction f as [|f IH]; intros f' st regs Lf; [apply local_fuel|]. destruct f' as [|f']; [lia|]. apply local_intro; [cbn [run]; destruct eof; [reflexivity|exact Logic.I]|intros; split; reflexivity|]. intros p q t t' L. cbn [run].
  destruct (p_code p =? 0); [apply sim_back|]. apply sim_cons. apply sim_bind; [exact L|apply step_local, L|]. intros [st' regs']. apply IH. lia.
Qed.
Lemma item_local sp : local (read_item sp) (read_item sp).
Proof.
  intros q t t' L. unfold read_item. apply sim_bind; [exact L|apply run_local; [pose proof (length_le q t t' L); lia|exact L]|]. intros [st regs] q0 t0 t0' L0. destruct (forallb _ _); apply sim_ok.
Qed.
Lemma next_loop_local {A} (body body' : pair -> A -> feed -> res (A * feed)) : (forall p a, local (body p a) (body' p a)) -> forall f f' a, (f <= f')%nat ->
  local (fun it => next_loop body f it a) (fun it => next_loop body' f' it a).
Proof.
  intros B. induction f as [|f IH]; intros f' a Lf; [apply local_fuel|]. destruct f' as [|f']; [lia|]. start. cbn [next_loop]. destruct (p_code p =? 0); [apply sim_back|]. apply sim_cons.
  apply sim_bind; [exact L|apply B, L|]. intros a'. apply IH. lia.
Qed.

(** * Objects with readers of their own *)
Lemma common_local p st : local (common_apply p st) (common_apply p st).
Proof. intros q t t' L. unfold common_apply. apply sim_bind; [exact L|apply step_local, L|]. intros x. apply local_ret. Qed.
Lemma loop_local {A B} (body : pair -> A -> feed -> res (A * feed)) a (k : A -> B) : (forall p a, local (body p a) (body p a)) ->
  local (fun it => let? (x, r) := next_loop body (S (length it)) it a in Ok (k x, r)) (fun it => let? (x, r) := next_loop body (S (length it)) it a in Ok (k x, r)).
Proof.
  intros B0 q t t' L. apply sim_bind; [exact L|apply next_loop_local; [exact B0|pose proof (length_le q t t' L); lia|exact L]|]. intros x. apply local_ret.
Qed.
Ltac plain := apply sim_plain; intros ? _; try apply sim_ok.
Ltac arms := repeat match goal with |- sim _ _ _ (if ?c then _ else _) _ => destruct c; [try (plain; fail)|] end.
Lemma dict_local : local read_dict read_dict.
Proof.
  apply (loop_local dict_body _ fst). intros p [[st d] last] q t t' L. unfold dict_body. arms. apply sim_bind; [exact L|apply common_local, L|]. intros. apply local_ret.
Qed.
Lemma dictd_local : local read_dictd read_dictd.
Proof.
  apply (loop_local dictd_body _ fst). intros p [[st d] last] q t t' L. unfold dictd_body. arms. apply sim_bind; [exact L|apply common_local, L|]. intros. apply local_ret.
Qed.
Lemma xrec_local : local read_xrec read_xrec.
Proof.
  apply (loop_local xrec_body _ fst). intros p [[st x] data] q t t' L. unfold xrec_body. destruct data; [apply sim_ok|]. destruct (p_code p =? 280); [plain|].
  destruct (find_arm ocommon_arms (p_code p) []); [|destruct (p_code p =? 100); [|destruct ((p_code p =? 5) || (p_code p =? 105))]; apply sim_ok].
  apply sim_bind; [exact L|apply common_local, L|]. intros. apply local_ret.
Qed.
Lemma spatial_local : local read_spatial read_spatial.
Proof. intros q t t' L. unfold read_spatial. apply sim_bind; [exact L|apply item_local, L|]. intros. apply local_ret. Qed.
Lemma sun_local : local read_sun read_sun.
Proof.
  intros q t t' L. unfold read_sun. apply sim_bind; [exact L|apply item_local, L|]. intros [st|]; [|apply local_ret]. intros q0 t0 t0' L0. apply sim_plain. intros. apply sim_ok.
Qed.
Lemma dtable_local : local read_dtable read_dtable.
Proof.
  apply (loop_local dtable_body _ fst). intros p [[st d] l] q t t' L. unfold dtable_body. apply sim_bind; [exact L| |].
  - unfold dtable_pair. cbv zeta.
    repeat match goal with |- sim _ _ _ (if ?c =? ?z then _ else _) _ => destruct (c =? z) end;
      try (plain; fail);
      try (plain; plain; fail);
      try (plain; destruct (dl_p2 l) as [[? ?] ?]; first [apply sim_ok|plain]; fail);
      try (plain; destruct (dl_p3 l) as [[? ?] ?]; first [apply sim_ok|plain]; fail).
    all: repeat match goal with |- sim _ _ _ (if ?c then _ else _) _ => destruct c end.
    all: try (plain; plain; fail).
    all: apply sim_bind; [exact L|apply common_local, L|]; intros; apply local_ret.
  - intros [[st' d'] l'] q0 t0 t0' L0. destruct (_ && _); [|apply sim_ok]. apply sim_plain. intros. apply sim_ok.
Qed.
Lemma cell_local seen c : local (fun it => cell_loop it seen c) (fun it => cell_loop it seen c).
Proof.
  refine (local_rec (fun x it => cell_loop it (fst x) (snd x)) (fun x it => cell_loop it (fst x) (snd x)) ltac:(intros; reflexivity) ltac:(intros; split; reflexivity) _ (seen, c)).
  intros [s y] p q t t' L IH. cbn [cell_loop fst snd]. destruct (p_code p =? 0); [apply sim_cons, sim_ok|]. destruct ((p_code p =? 7) && s); [apply sim_back|].
  destruct (cell_arm (p_code p) cell_codes 0) as [[n cv]|]; [|apply sim_back]. apply sim_cons, sim_plain. intros z _.
  exact (IH (s || (p_code p =? 7), set_nth n z y) q t t' (le_n _) L).
Qed.
Lemma tstyle_local : local read_tstyle read_tstyle.
Proof.
  intros q t t' L. unfold read_tstyle. apply sim_bind; [exact L|apply next_loop_local; [|pose proof (length_le q t t' L); lia|exact L]|intros [[? ?] ?]; apply local_ret].
  clear q t t' L. intros p [[st regs] cells] q t t' L. unfold tstyle_body. destruct (p_code p =? 7) eqn:C.
  - cbn [cell_loop]. replace (p_code p =? 0) with false by (apply Z.eqb_eq in C; rewrite C; reflexivity). rewrite C. cbn [andb].
    apply Z.eqb_eq in C. rewrite C. change (cell_arm 7 cell_codes 0) with (Some (0%nat, RStr)).
    apply sim_bind; [exact L|apply sim_plain; intros x _; apply cell_local, L|]. intros. apply local_ret.
  - apply sim_bind; [exact L|apply step_local, L|]. intros. apply local_ret.
Qed.
Lemma geo_local g : local (fun it => geo_loop it g) (fun it => geo_loop it g).
Proof.
  refine (local_rec (fun x it => geo_loop it x) (fun x it => geo_loop it x) ltac:(intros; reflexivity) ltac:(intros; split; reflexivity) _ g).
  intros x p q t t' L IH. cbn [geo_loop]. destruct (p_code p =? 3); [apply sim_cons, sim_ok|]. destruct (geo_pair p x) as [m|]; [|apply sim_back]. apply sim_cons, sim_plain.
  intros y _. exact (IH y q t t' (le_n _) L).
Qed.
Lemma geo_all_local : forall f f' acc, (f <= f')%nat -> local (fun it => geo_all f it acc) (fun it => geo_all f' it acc).
Proof.
  induction f as [|f IH]; intros f' acc Lf; [apply local_fuel|]. destruct f' as [|f']; [lia|]. start. cbn [geo_all]. destruct (p_code p =? 90); [|apply sim_back].
  apply sim_bind; [exact L|exact (geo_local _ (Ok p :: q) t t' L)|]. intros y. apply IH. lia.
Qed.
Lemma ts_local : forall f f' x, (f <= f')%nat -> local (fun it => ts_loop f it x) (fun it => ts_loop f' it x).
Proof.
  induction f as [|f IH]; intros f' x Lf; [apply local_fuel|]. destruct f' as [|f']; [lia|]. assert (H : (f <= f')%nat) by lia. start. cbn [ts_loop]. destruct x as [a b c d e g].
  destruct (p_code p =? 0); [apply sim_back|].
  repeat match goal with |- sim _ _ _ (if ?c then _ else _) _ => destruct c end; try apply sim_back; apply sim_cons; try (apply (IH f' _ H), L); try (apply sim_plain; intros ? _; apply (IH f' _ H), L).
  apply sim_bind; [exact L|apply geo_all_local; [pose proof (length_le q t t' L); lia|exact L]|]. intros y. apply (IH f' _ H).
Qed.
Lemma ts_all_local : forall f f' acc, (f <= f')%nat -> local (fun it => ts_all f it acc) (fun it => ts_all f' it acc).
Proof.
  induction f as [|f IH]; intros f' acc Lf; [apply local_fuel|]. destruct f' as [|f']; [lia|]. start. cbn [ts_all]. destruct (p_code p =? 0); [apply sim_back|].
  apply sim_bind; [exact L|apply (ts_local _ _ ts_default) with (q := Ok p :: q); [pose proof (length_le q t t' L); cbn [length]; lia|exact L]|]. intros y. apply IH. lia.
Qed.
Lemma secs_local : local read_secs read_secs.
Proof.
  intros q t t' L. unfold read_secs, read_secs_fuel. pose proof (length_le q t t' L) as Lq. apply next_loop_local; [|lia|exact L]. revert Lq. generalize (length (q ++ t)) (length (q ++ t')). clear.
  intros n n' Ln p [st x] q t t' L. unfold secs_body. destruct (p_code p =? 1); [apply sim_bind; [exact L|apply ts_all_local; [lia|exact L]|]; intros; apply local_ret|].
  arms; try apply sim_ok. apply sim_bind; [exact L|apply common_local, L|]. intros. apply local_ret.
Qed.

(** * Entities *)
Lemma skip_local : local (fun it => only (skip_item it)) (fun it => only (skip_item it)).
Proof.
  refine (local_rec (fun (_ : unit) it => only (skip_item it)) (fun _ it => only (skip_item it)) ltac:(intros; exact Logic.I) ltac:(intros; split; reflexivity) _ tt).
  intros _ p q t t' L IH. cbn [skip_item]. destruct (p_code p =? 0); [apply sim_back|]. apply sim_cons. exact (IH tt q t t' (le_n _) L).
Qed.
(** The five readers of dimensions take the same pairs: they differ in the names of fields only. *)
Definition erase (a : action) : action :=
  match a with
  | ASet _ r => ASet "" r | APush _ r => APush "" r | ANewRec _ d j r => ANewRec "" d j r | AMulti _ m => AMulti [] m | AExt _ => AExt "" | AXdata _ => AXdata "" | a => a
  end.
Definition erase_arm (a : arm) : arm := mk_arm (a_code a) (a_guards a) (map erase (a_actions a)).
Definition steady (a : arm) : bool := forallb (fun x => match x with ALast _ _ _ => false | _ => true end) (a_actions a).
Definition obs (m : res (store * list Z * feed)) : res (list Z * feed) := let? (x, r) := m in Ok (snd x, r).
Lemma act_obs a p st st' regs it : (match a with ALast _ _ _ => false | _ => true end) = true -> obs (act a p st regs it) = obs (act (erase a) p st' regs it).
Proof.
  intros N. destruct a; cbn [act erase] in *; try discriminate N; try reflexivity.
  - destruct (apply_r r p); reflexivity.
  - destruct (apply_r r p); reflexivity.
  - destruct (apply_r r p); reflexivity.
  - destruct (apply_mr m p); reflexivity.
  - destruct (assert_string p) as [n|]; [|reflexivity]. cbn [bind]. destruct (read_ext_group n it) as [[? ?]|]; reflexivity.
  - destruct (assert_string p) as [n|]; [|reflexivity]. cbn [bind]. destruct (read_xdata n it) as [[? ?]|]; reflexivity.
  - destruct (assert_string p) as [x|]; [|reflexivity]. cbn [bind]. destruct (mark tbl dflt x); reflexivity.
Qed.
Lemma acts_obs p : forall l st st' regs it, forallb (fun x => match x with ALast _ _ _ => false | _ => true end) l = true -> obs (acts l p st regs it) = obs (acts (map erase l) p st' regs it).
Proof.
  induction l as [|a l IH]; intros st st' regs it H; cbn [acts map]; [reflexivity|]. cbn [forallb] in H. apply andb_prop in H as [H1 H2]. pose proof (act_obs a p st st' regs it H1) as A.
  destruct (act a p st regs it) as [[[s1 r1] i1]|e1]; destruct (act (erase a) p st' regs it) as [[[s2 r2] i2]|e2]; cbn [obs bind snd fst] in *; try discriminate A; injection A; intros; subst; [|reflexivity].
  apply IH, H2.
Qed.
Lemma find_erase code regs : forall arms, forallb steady arms = true -> match find_arm arms code regs with
  | Some l => find_arm (map erase_arm arms) code regs = Some (map erase l) /\ forallb (fun x => match x with ALast _ _ _ => false | _ => true end) l = true
  | None => find_arm (map erase_arm arms) code regs = None end.
Proof.
  induction arms as [|a arms IH]; intros H; cbn [find_arm map]; [reflexivity|]. cbn [forallb] in H. apply andb_prop in H as [H1 H2]. cbn [erase_arm a_code a_guards a_actions].
  destruct ((a_code a =? code) && forallb (guard_ok regs) (a_guards a)); [split; [reflexivity|exact H1]|]. apply IH, H2.
Qed.
Lemma run_obs arms eof : forallb steady arms = true -> forall f it st st' regs, obs (run arms eof f it st regs) = obs (run (map erase_arm arms) eof f it st' regs).
Proof.
  intros H. induction f as [|f IH]; intros it st st' regs; [reflexivity|]. cbn [run]. destruct it as [|[p|e] it]; [destruct eof; reflexivity| |reflexivity]. destruct (p_code p =? 0); [reflexivity|].
  assert (A : obs (step arms p st regs it) = obs (step (map erase_arm arms) p st' regs it)).
  { unfold step. pose proof (find_erase (p_code p) regs arms H) as F. destruct (find_arm arms (p_code p) regs) as [l|]; [destruct F as [-> N]; apply acts_obs, N|rewrite F; reflexivity]. }
  destruct (step arms p st regs it) as [[[s1 r1] i1]|e1]; destruct (step (map erase_arm arms) p st' regs it) as [[[s2 r2] i2]|e2]; cbn [obs bind snd fst] in *; try discriminate A; injection A; intros; subst; [|reflexivity].
  apply IH.
Qed.
Definition dim_obs (it : feed) : res (list Z * feed) :=
  obs (run (map erase_arm (sp_arms (it_spec ent_rotated_dimension))) false (S (length it)) it (fun _ => FInt 0) [0]).
Lemma dim_reads t it : In t dimensions -> match dim_obs it with Ok (_, r) => exists x, read_item (it_spec t) it = Ok (x, r) | Err e => read_item (it_spec t) it = Err e end.
Proof.
  intros Ht. assert (H : forallb steady (sp_arms (it_spec t)) = true /\ map erase_arm (sp_arms (it_spec t)) = map erase_arm (sp_arms (it_spec ent_rotated_dimension)) /\
    sp_eof (it_spec t) = false /\ sp_regs (it_spec t) = [0]).
  { cbn [dimensions In] in Ht. decompose [or] Ht; try contradiction; subst t; vm_compute; repeat split; reflexivity. }
  destruct H as (H1 & H2 & H3 & H4). unfold dim_obs. rewrite <- H2, <- (run_obs _ false H1 _ it (default_of (it_spec t))). unfold read_item. rewrite H3, H4.
  destruct (run _ _ _ _ _ _) as [[[st regs] r]|e]; cbn [obs bind]; [|reflexivity]. match goal with |- context [if ?c then _ else _] => destruct c end; eexists; reflexivity.
Qed.
Lemma dims_rest it : forall l, incl l dimensions -> match dim_obs it with Ok (_, r) => exists x, read_dimension l it = Ok (x, r) | Err e => read_dimension l it = Err e end.
Proof.
  induction l as [|t l IH]; intros Hl; cbn [read_dimension].
  - pose proof (dim_reads ent_rotated_dimension it ltac:(left; reflexivity)) as D. destruct (dim_obs it) as [[regs r]|e]; [destruct D as [x ->]|rewrite D]; cbn [bind]; [eexists|]; reflexivity.
  - pose proof (dim_reads t it (Hl t (or_introl eq_refl))) as D. specialize (IH (fun x H => Hl x (or_intror H))). destruct (dim_obs it) as [[regs r]|e]; [|rewrite D; reflexivity].
    destruct D as [[st|] ->]; [eexists; reflexivity|exact IH].
Qed.
Lemma dimension_local l : incl l dimensions -> local (read_dimension l) (read_dimension l).
Proof.
  induction l as [|x l IH]; intros Hl q t t' L; cbn [read_dimension]; [apply sim_bind; [exact L|apply item_local, L|]; intros; apply local_ret|].
  assert (Hl' : incl l dimensions) by (intros y Hy; apply Hl; right; exact Hy). specialize (IH Hl').
  destruct (item_local (it_spec x) q t t' L) as [(y & s & T & -> & ->)|[(e & -> & ->)|H]]; [|apply sim_err|].
  - destruct y as [st|]; [left; exists (Some (x, st)), s; split; [exact T|split; reflexivity]|]. apply IH, L.
  - right; right. pose proof (dim_reads x (q ++ t) (Hl x (or_introl eq_refl))) as D. pose proof (dims_rest (q ++ t) l Hl') as D'. destruct (dim_obs (q ++ t)) as [[regs r]|e].
    + destruct D as [y D]. destruct D' as [y' D']. rewrite D in *. rewrite D'. destruct y; exact H.
    + rewrite D in *. exact H.
Qed.
Lemma entity_local : forall f f', (f <= f')%nat -> local (read_entity_fuel f) (read_entity_fuel f').
Proof.
  induction f as [|f IH]; intros f' Lf; [apply local_fuel|]. destruct f' as [|f']; [lia|]. specialize (IH f' ltac:(lia)). start. cbn [read_entity_fuel]. destruct (p_code p =? 0); [|apply sim_err].
  apply sim_plain. intros s _. destruct (seqb s (str "ENDSEC") || seqb s (str "ENDBLK")); [apply sim_back|]. apply sim_cons. destruct (seqb s (str "DIMENSION")); [|destruct (from_type_string s) as [x|]].
  - apply sim_bind; [exact L|apply dimension_local; [apply incl_refl|exact L]|]. intros [e|]; [apply local_ret|exact IH].
  - apply sim_bind; [exact L|apply item_local, L|]. intros [e|]; [apply local_ret|exact IH].
  - apply sim_bind_only; [exact L|apply skip_local, L|exact IH].
Qed.
Lemma read_entity_local : local read_entity read_entity.
Proof. intros q t t' L. apply entity_local; [pose proof (length_le q t t' L); lia|exact L]. Qed.

(** * Errors turned into the end *)
Lemma stop_cases {A} (f : feed -> res (A * feed)) : forall q seen,
  (exists a b, q = a ++ b /\ f (rev seen ++ a ++ [marker]) <> Err OutOfFuel /\ forall t, stop_behind f seen (q ++ t) = b ++ t) \/
  (f (rev seen ++ q ++ [marker]) = Err OutOfFuel /\ forall t, tail_of (stop_behind f seen (q ++ t)) t).
Proof.
  induction q as [|x q IH]; intros seen.
  - destruct (f (rev seen ++ [marker])) as [y|e] eqn:E.
    + left. exists [], []. split; [reflexivity|]. cbn [app]. rewrite E. split; [discriminate|]. intros t. destruct t; cbn [stop_behind]; rewrite E; reflexivity.
    + assert (D : e = OutOfFuel \/ e <> OutOfFuel) by (destruct e; first [left; reflexivity|right; discriminate]). destruct D as [->|N].
      * right. cbn [app]. split; [exact E|]. intros t. revert seen E. induction t as [|y t IHt]; intros seen E; cbn [stop_behind]; rewrite E; [apply tail_refl|].
        destruct (f (rev (y :: seen) ++ [marker])) as [z|e'] eqn:E'.
        { destruct t; cbn [stop_behind]; rewrite E'; apply tail_cons, tail_refl. }
        { assert (D : e' = OutOfFuel \/ e' <> OutOfFuel) by (destruct e'; first [left; reflexivity|right; discriminate]). destruct D as [->|N'].
          - apply tail_cons. exact (IHt (y :: seen) E').
          - destruct t; cbn [stop_behind]; rewrite E'; destruct e'; try contradiction; apply tail_cons, tail_refl. }
      * left. exists [], []. split; [reflexivity|]. cbn [app]. rewrite E. split; [intros Y; injection Y as Y; contradiction|]. intros t. destruct t; cbn [stop_behind]; rewrite E; destruct e; try contradiction; reflexivity.
  - cbn [app stop_behind]. destruct (f (rev seen ++ [marker])) as [y|e] eqn:E.
    + left. exists [], (x :: q). split; [reflexivity|]. cbn [app]. rewrite E. split; [discriminate|reflexivity].
    + assert (D : e = OutOfFuel \/ e <> OutOfFuel) by (destruct e; first [left; reflexivity|right; discriminate]). destruct D as [->|N].
      * destruct (IH (x :: seen)) as [(a & b & -> & N & H)|[H1 H2]]; cbn [rev] in *.
        { left. exists (x :: a), b. split; [reflexivity|]. rewrite <- app_assoc in N. split; [exact N|exact H]. }
        { right. rewrite <- app_assoc in H1. split; [exact H1|exact H2]. }
      * left. exists [], (x :: q). split; [reflexivity|]. cbn [app]. rewrite E. split; [intros Y; injection Y as Y; contradiction|]. intros t. destruct e; try contradiction; reflexivity.
Qed.
Lemma swallow_local {A} (f : feed -> res (option A * feed)) : local f f -> local (swallow f) (swallow f).
Proof.
  intros F q t t' L. unfold swallow. destruct (F q t t' L) as [(x & s & T & -> & ->)|[(e & E & E')|H]].
  - left. exists x, s. split; [exact T|split; reflexivity].
  - rewrite E, E'. assert (D : (e = Panic \/ e = OutOfFuel) \/ (e <> Panic /\ e <> OutOfFuel)) by (destruct e; first [left; left; reflexivity|left; right; reflexivity|right; split; discriminate]).
    destruct D as [[-> | ->]|[N1 N2]]; [apply sim_err|apply sim_err|].
    assert (R : sim q t t' (Ok (@None A, after_error f (q ++ t))) (Ok (None, after_error f (q ++ t')))).
    { unfold after_error. destruct (stop_cases f q []) as [(a & b & -> & N & H)|[H1 H2]]; cbn [rev app] in *.
      - left. exists None, b. split; [exists a; reflexivity|]. rewrite !H. split; reflexivity.
      - right; right. split; [|apply H2]. intros ->. rewrite E in H1. injection H1 as ->. contradiction. }
    destruct e; try contradiction; exact R.
  - destruct (f (q ++ t)) as [[x r]|e] eqn:E; [right; right; exact H|]. cbn [touched] in H.
    assert (D : (e = Panic \/ e = OutOfFuel) \/ (e <> Panic /\ e <> OutOfFuel)) by (destruct e; first [left; left; reflexivity|left; right; reflexivity|right; split; discriminate]).
    destruct D as [[-> | ->]|[N1 N2]]; [right; right; exact H|apply sim_fuel|].
    assert (Nt : t <> [marker]) by (intros ->; apply N2, H; reflexivity).
    assert (R : sim q t t' (Ok (@None A, after_error f (q ++ t))) (match f (q ++ t') with Ok x => Ok x | Err Panic => Err Panic | Err OutOfFuel => Err OutOfFuel | Err _ => Ok (None, after_error f (q ++ t')) end)).
    { unfold after_error. destruct (stop_cases f q []) as [(a & b & -> & N & Hs)|[H1 H2]]; cbn [rev app] in *; [|right; right; split; [exact Nt|apply H2]].
      rewrite Hs. destruct (b ++ t) as [|x0 bt] eqn:Ebt.
      { right; right. split; [exact Nt|]. destruct b; [|discriminate Ebt]. cbn [app] in Ebt. subst t. apply tail_refl. }
      assert (M : f (a ++ [marker]) = Err e).
      { destruct (F a [marker] (b ++ t)) as [(y & s & _ & X1 & X2)|[(e' & X1 & X2)|X]]; [rewrite Ebt; cbn [length]; lia| | |].
        - rewrite app_assoc, E in X2. discriminate X2.
        - rewrite app_assoc, E in X2. injection X2 as ->. exact X1.
        - destruct (f (a ++ [marker])) as [[? ?]|e']; cbn [touched] in X; [exfalso; apply (proj1 X); reflexivity|]. exfalso. apply N. rewrite (X eq_refl). reflexivity. }
      assert (M' : f ((a ++ b) ++ t') = Err e).
      { destruct (F a [marker] (b ++ t')) as [(y & s & _ & X1 & X2)|[(e' & X1 & X2)|X]].
        - assert (Z : (length (b ++ t) = S (length bt))%nat) by (rewrite Ebt; reflexivity). rewrite app_length in *. cbn [length]. lia.
        - rewrite M in X1. discriminate X1.
        - rewrite M in X1. injection X1 as ->. rewrite <- app_assoc. exact X2.
        - rewrite M in X. cbn [touched] in X. exfalso. apply N2, X. reflexivity. }
      rewrite M'. left. exists None, b. split; [exists a; reflexivity|]. rewrite Ebt. split; [reflexivity|]. rewrite Hs. destruct e; try contradiction; reflexivity. }
    destruct e; try contradiction; exact R.
Qed.
Lemma entity_next_local : local entity_next entity_next.
Proof. apply swallow_local, read_entity_local. Qed.

(** * Collecting entities *)
Definition swing {A} (m : res (A * ents)) : res ((A * option raw) * feed) := let? (a, s) := m in Ok ((a, fst s), snd s).
Definition localE {A} (f f' : ents -> res (A * ents)) : Prop := forall o, local (fun it => swing (f (o, it))) (fun it => swing (f' (o, it))).
Lemma sim_bindE {A B} q t t' (m m' : res (A * ents)) (k k' : A * ents -> res (B * feed)) : (length t <= length t')%nat ->
  sim q t t' (swing m) (swing m') -> (forall a o, local (fun r => k (a, (o, r))) (fun r => k' (a, (o, r)))) -> sim q t t' (bind m k) (bind m' k').
Proof.
  intros L S K. replace (bind m k) with (bind (swing m) (fun x => k (fst (fst x), (snd (fst x), snd x)))) by (destruct m as [[a [o r]]|e]; reflexivity).
  replace (bind m' k') with (bind (swing m') (fun x => k' (fst (fst x), (snd (fst x), snd x)))) by (destruct m' as [[a [o r]]|e]; reflexivity).
  apply sim_bind; [exact L|exact S|]. intros [a o]. exact (K a o).
Qed.
Lemma swing_bind {A B} (m : res (A * ents)) (k : A * ents -> res (B * ents)) : swing (bind m k) = bind m (fun x => swing (k x)).
Proof. destruct m; reflexivity. Qed.
Lemma pnext_local : localE pnext pnext.
Proof.
  intros [e|] q t t' L; unfold pnext; cbn [fst snd]; [apply sim_ok|].
  change (sim q t t' (swing (let? (o, r) := entity_next (q ++ t) in Ok (o, (None, r)))) (swing (let? (o, r) := entity_next (q ++ t') in Ok (o, (None, r))))).
  replace (swing (let? (o, r) := entity_next (q ++ t) in Ok (o, (None, r)))) with (let? (o, r) := entity_next (q ++ t) in Ok ((o, @None raw), r)) by (destruct (entity_next (q ++ t)) as [[? ?]|]; reflexivity).
  replace (swing (let? (o, r) := entity_next (q ++ t') in Ok (o, (None, r)))) with (let? (o, r) := entity_next (q ++ t') in Ok ((o, @None raw), r)) by (destruct (entity_next (q ++ t')) as [[? ?]|]; reflexivity).
  apply sim_bind; [exact L|apply entity_next_local, L|]. intros o. apply local_ret.
Qed.
Definition onlyE (m : res ents) : res (unit * ents) := let? s := m in Ok (tt, s).
Lemma seqend_local : localE (fun s => onlyE (swallow_seqend s)) (fun s => onlyE (swallow_seqend s)).
Proof.
  intros o q t t' L. unfold swallow_seqend, onlyE. 
  assert (R : forall m : res (option raw * ents), swing (let? s := (let? (o, s') := m in match o with Some e => if is_kind "Seqend" e then Ok s' else Ok (Some e, snd s') | None => Ok s' end) in Ok (tt, s)) =
    bind m (fun '(o, s') => match o with Some e => if is_kind "Seqend" e then Ok ((tt, fst s'), snd s') else Ok ((tt, Some e), snd s') | None => Ok ((tt, fst s'), snd s') end)).
  { intros [[[e|] [o' r]]|e]; cbn [bind swing]; try reflexivity. destruct (is_kind "Seqend" e); reflexivity. }
  rewrite !R. apply sim_bindE; [exact L|apply pnext_local, L|]. intros [e|] o'; [destruct (is_kind "Seqend" e)|]; cbn [fst snd]; apply local_ret.
Qed.
Lemma mtext_local : localE take_mtext take_mtext.
Proof.
  intros o q t t' L. unfold take_mtext. rewrite !swing_bind. apply sim_bindE; [exact L|apply pnext_local, L|]. intros [e|] o'; [destruct (is_kind "MText" e)|]; cbn [swing bind fst snd]; apply local_ret.
Qed.
Lemma children_local n : forall f f', (f <= f')%nat -> localE (take_children n f) (take_children n f').
Proof.
  induction f as [|f IH]; intros f' Lf o; [apply local_fuel|]. destruct f' as [|f']; [lia|]. specialize (IH f' ltac:(lia)). intros q t t' L. cbn [take_children]. rewrite !swing_bind.
  apply sim_bindE; [exact L|apply pnext_local, L|]. intros [e|] o'; [destruct (is_kind n e)|]; try (cbn [swing bind fst snd]; apply local_ret). clear q t t' L. intros q t t' L. rewrite !swing_bind. apply sim_bindE; [exact L|apply IH, L|].
  intros l o''. cbn [swing bind fst snd]. apply local_ret.
Qed.
Lemma collect_local : forall f f', (f <= f')%nat -> forall o, local (fun it => collect_fuel f (o, it)) (fun it => collect_fuel f' (o, it)).
Proof.
  induction f as [|f IH]; intros f' Lf o; [apply local_fuel|]. destruct f' as [|f']; [lia|]. specialize (IH f' ltac:(lia)). intros q t t' L. cbn [collect_fuel].
  apply sim_bindE; [exact L|apply pnext_local, L|]. intros [e|] o'; [|apply local_ret]. clear q t t' L. intros q t t' L. apply sim_bindE; [exact L| |].
  - destruct (has_mtext (kind_of e)).
    + rewrite !swing_bind. apply sim_bindE; [exact L|apply mtext_local, L|]. intros m o''. cbn [swing bind fst snd]. apply local_ret.
    + assert (C : forall n, sim q t t'
        (swing (let? (l, s2) := take_children n (ents_fuel (o', q ++ t)) (o', q ++ t) in let? s3 := swallow_seqend s2 in Ok (entity_of e l default_mtext, s3)))
        (swing (let? (l, s2) := take_children n (ents_fuel (o', q ++ t')) (o', q ++ t') in let? s3 := swallow_seqend s2 in Ok (entity_of e l default_mtext, s3)))).
      { intros n. rewrite !swing_bind. apply sim_bindE; [exact L|apply children_local; [unfold ents_fuel; cbn [snd]; pose proof (length_le q t t' L); lia|exact L]|]. intros l o''.
        intros q0 t0 t0' L0. 
        assert (R : forall m : res ents, swing (let? s3 := m in Ok (entity_of e l default_mtext, s3)) = bind (onlyE m) (fun x => Ok ((entity_of e l default_mtext, fst (snd x)), snd (snd x)))) by (intros [[? ?]|]; reflexivity).
        rewrite !R. apply sim_bindE; [exact L0|apply seqend_local, L0|]. intros [] o3. cbn [swing bind fst snd]. apply local_ret. }
      destruct (is_kind "Insert" e && has_attributes e); [apply C|]. destruct (is_kind "Polyline" e); [apply C|]. apply sim_ok.
  - intros x o''. clear q t t' L. intros q t t' L. apply sim_bind; [exact L|apply IH, L|]. intros l. apply local_ret.
Qed.
Lemma collect_it_local : local collect collect.
Proof. intros q t t' L. unfold collect. apply collect_local; [pose proof (length_le q t t' L); lia|exact L]. Qed.
Lemma entities_local d : local (read_entities d) (read_entities d).
Proof. intros q t t' L. unfold read_entities. apply sim_bind; [exact L|apply collect_it_local, L|]. intros l. apply local_ret. Qed.

(** * Objects *)
Lemma reader_local s rd : assoc_str s object_readers = Some rd -> local rd rd.
Proof.
  intros H. apply assoc_In in H. unfold object_readers in H.
  assert (C : forall A (f : A -> custom) (m : feed -> res (store * A * feed)), local m m -> local (fun it => custom_of f (m it)) (fun it => custom_of f (m it))).
  { intros A f m M q t t' L. unfold custom_of. apply sim_bind; [exact L|apply M, L|]. intros. apply local_ret. }
  assert (P : forall x (m : feed -> res (option store * feed)), local m m -> local (fun it => plain_of x (m it)) (fun it => plain_of x (m it))).
  { intros x m M q t t' L. unfold plain_of. apply sim_bind; [exact L|apply M, L|]. intros. apply local_ret. }
  apply in_app_or in H as [H|H].
  - cbn [custom_readers In] in H. decompose [or] H; clear H; try contradiction; match goal with Y : (_, _) = (s, rd) |- _ => injection Y as <- <- end.
    + apply C, dict_local.
    + apply C, dictd_local.
    + apply C, dtable_local.
    + apply C, xrec_local.
    + apply C, secs_local.
    + apply C, tstyle_local.
    + apply P, spatial_local.
    + apply P, sun_local.
  - apply in_map_iff in H as [x [Y _]]. injection Y as <- <-. apply P, item_local.
Qed.
Lemma object_local : forall f f', (f <= f')%nat -> local (read_object_fuel f) (read_object_fuel f').
Proof.
  induction f as [|f IH]; intros f' Lf; [apply local_fuel|]. destruct f' as [|f']; [lia|]. specialize (IH f' ltac:(lia)). start. cbn [read_object_fuel]. destruct (p_code p =? 0); [|apply sim_err].
  apply sim_plain. intros s _. destruct (seqb s (str "ENDSEC") || seqb s (str "ENDBLK")); [apply sim_back|]. apply sim_cons. destruct (assoc_str s object_readers) as [rd|] eqn:R.
  - apply sim_bind; [exact L|apply (reader_local s rd R), L|]. intros o. apply local_ret.
  - apply sim_bind_only; [exact L|apply skip_local, L|exact IH].
Qed.
Lemma read_object_local : local read_object read_object.
Proof. intros q t t' L. apply object_local; [pose proof (length_le q t t' L); lia|exact L]. Qed.
Lemma objects_local : forall f f' d, (f <= f')%nat -> local (read_objects_fuel f d) (read_objects_fuel f' d).
Proof.
  induction f as [|f IH]; intros f' d Lf; [apply local_fuel|]. destruct f' as [|f']; [lia|]. intros q t t' L. cbn [read_objects_fuel].
  apply sim_bind; [exact L|apply (swallow_local _ read_object_local), L|]. intros [o|]; [apply IH; lia|apply local_ret].
Qed.
Lemma read_objects_local d : local (read_objects d) (read_objects d).
Proof. intros q t t' L. apply objects_local; [pose proof (length_le q t t' L); lia|exact L]. Qed.

(** * Classes, tables, blocks, the thumbnail *)
Lemma class_local v s : local (read_class v s) (read_class v s).
Proof. intros q t t' L. unfold read_class. apply sim_bind; [exact L|apply item_local, L|]. intros [st|]; [apply local_ret|apply local_err]. Qed.
Lemma classes_local v : forall f f', (f <= f')%nat -> local (read_classes_fuel f v) (read_classes_fuel f' v).
Proof.
  induction f as [|f IH]; intros f' Lf; [apply local_fuel|]. destruct f' as [|f']; [lia|]. specialize (IH f' ltac:(lia)). start. cbn [read_classes_fuel]. destruct (p_code p =? 0); [|apply sim_cons, IH, L].
  apply sim_plain. intros s _. destruct (seqb s (str "ENDSEC")); [apply sim_back|]. apply sim_cons. apply sim_bind; [exact L|apply class_local, L|]. intros c. apply local_bind; [exact IH|]. intros l. apply local_ret.
Qed.
Lemma read_classes_local d : local (read_classes d) (read_classes d).
Proof.
  intros q t t' L. unfold read_classes. apply sim_bind; [exact L|apply classes_local; [pose proof (length_le q t t' L); lia|exact L]|]. intros l. apply local_ret.
Qed.
Lemma table_local k : forall f f' d, (f <= f')%nat -> local (read_table_fuel f k d) (read_table_fuel f' k d).
Proof.
  induction f as [|f IH]; intros f' d Lf; [apply local_fuel|]. destruct f' as [|f']; [lia|]. assert (H : (f <= f')%nat) by lia. start. cbn [read_table_fuel].
  destruct (p_code p =? 0); [|apply sim_cons, (IH f' _ H), L]. apply sim_plain. intros s _. destruct (seqb s (table_type k)); [|apply sim_back]. apply sim_cons.
  apply sim_bind; [exact L|apply item_local, L|]. intros [st|]; [apply (IH f' _ H)|apply local_err].
Qed.
Lemma swallow_table_local : local (fun it => only (swallow_table it)) (fun it => only (swallow_table it)).
Proof.
  refine (local_rec (fun (_ : unit) it => only (swallow_table it)) (fun _ it => only (swallow_table it)) ltac:(intros; exact Logic.I) ltac:(intros; split; reflexivity) _ tt).
  intros _ p q t t' L IH. cbn [swallow_table]. destruct (p_code p =? 0); [|apply sim_cons; exact (IH tt q t t' (le_n _) L)].
  destruct (assert_string p) as [s|e]; cbn [bind]; [|apply sim_err]. destruct (seqb s (str "TABLE") || seqb s (str "ENDSEC") || seqb s (str "ENDTAB")); [apply sim_back|]. apply sim_cons. exact (IH tt q t t' (le_n _) L).
Qed.
Lemma swallow_section_local : local (fun it => only (swallow_section it)) (fun it => only (swallow_section it)).
Proof.
  refine (local_rec (fun (_ : unit) it => only (swallow_section it)) (fun _ it => only (swallow_section it)) ltac:(intros; reflexivity) ltac:(intros; split; reflexivity) _ tt).
  intros _ p q t t' L IH. cbn [swallow_section]. destruct (p_code p =? 0); [|apply sim_cons; exact (IH tt q t t' (le_n _) L)].
  destruct (assert_string p) as [s|e]; cbn [bind]; [|apply sim_err]. destruct (seqb s (str "ENDSEC")); [apply sim_back|]. apply sim_cons. exact (IH tt q t t' (le_n _) L).
Qed.
Lemma expect_local s : local (fun it => only (expect s it)) (fun it => only (expect s it)).
Proof. start. cbn [expect]. destruct (is_zero s p); [apply sim_cons, sim_ok|apply sim_err]. Qed.
Lemma read_table_local d : local (read_table d) (read_table d).
Proof.
  start. cbn [read_table]. apply sim_cons. destruct (p_code p =? 2); [|apply sim_err]. apply sim_plain. intros s _. apply sim_bind; [exact L| |].
  - destruct (table_of_name s) as [k|]; [apply table_local; [pose proof (length_le q t t' L); lia|exact L]|]. apply sim_bind_only; [exact L|apply swallow_table_local, L|]. apply local_ret.
  - intros d'. apply local_bind_only; [apply expect_local|]. apply local_ret.
Qed.
Lemma section_item_local typ cb : (forall d, local (cb d) (cb d)) -> forall f f' d, (f <= f')%nat -> local (read_section_item f typ cb d) (read_section_item f' typ cb d).
Proof.
  intros C. induction f as [|f IH]; intros f' d Lf; [apply local_fuel|]. destruct f' as [|f']; [lia|]. assert (H : (f <= f')%nat) by lia. start. cbn [read_section_item].
  destruct (p_code p =? 0); [|apply sim_err]. apply sim_plain. intros s _. destruct (seqb s (str "ENDSEC")); [apply sim_back|]. apply sim_cons. destruct (seqb s (str typ)); [|apply sim_err].
  apply sim_bind; [exact L|apply C, L|]. intros d'. apply IH, H.
Qed.
Lemma run_head arms eof : forall f it st regs x e r, run arms eof f it st regs = Ok (x, Err e :: r) -> False.
Proof.
  induction f as [|f IH]; intros it st regs x e r; cbn [run]; [discriminate|]. destruct it as [|[p|e'] it]; [destruct eof; intros H; discriminate H| |discriminate].
  destruct (p_code p =? 0); [intros H; discriminate H|]. destruct (step arms p st regs it) as [[[st' regs'] r']|e']; cbn [bind]; [|discriminate]. apply IH.
Qed.
Lemma block_local : forall f f' st es, (f <= f')%nat -> local (read_block_fuel f st es) (read_block_fuel f' st es).
Proof.
  induction f as [|f IH]; intros f' st es Lf; [apply local_fuel|]. destruct f' as [|f']; [lia|]. assert (H : (f <= f')%nat) by lia. intros q t t' L. cbn [read_block_fuel].
  pose (k := fun n (a : store * list Z * feed) => let '(x, r) := a in match r with
    | [] => Err UnexpectedEndOfInput
    | Err e :: _ => Err e
    | Ok p :: r' => if is_zero "ENDBLK" p then let? r'' := skip_item r' in Ok (block_of (fst x) es, r'') else let? (l, r'') := collect r in read_block_fuel n (fst x) (es ++ l) r''
    end).
  assert (R : forall n it, (let? (x, r) := run (sp_arms (it_spec block_head)) false (S (length it)) it st [] in
    match r with
    | Ok p :: r' => if is_zero "ENDBLK" p then let? r'' := skip_item r' in Ok (block_of (fst x) es, r'') else let? (l, r'') := collect r in read_block_fuel n (fst x) (es ++ l) r''
    | _ => Err UnexpectedEndOfInput
    end) = bind (run (sp_arms (it_spec block_head)) false (S (length it)) it st []) (k n)).
  { intros n it. destruct (run _ _ _ _ _ _) as [[x [|[p|e] r]]|e] eqn:E; cbn [bind k]; try reflexivity. exfalso. exact (run_head _ _ _ _ _ _ _ _ _ E). }
  rewrite !R. apply sim_bind; [exact L|apply run_local; [pose proof (length_le q t t' L); lia|exact L]|]. intros x. clear q t t' L R. subst k. cbv beta.
  start. destruct (is_zero "ENDBLK" p).
  - apply sim_cons, sim_bind_only; [exact L|apply skip_local, L|]. apply local_ret.
  - apply sim_bind; [exact L|exact (collect_it_local (Ok p :: q) t t' L)|]. intros l. apply IH, H.
Qed.
Lemma read_block_local d : local (read_block d) (read_block d).
Proof.
  intros q t t' L. unfold read_block. apply sim_bind; [exact L|apply block_local; [pose proof (length_le q t t' L); lia|exact L]|]. intros b. apply local_ret.
Qed.
Lemma hex_local data : local (fun it => read_hex_data it data) (fun it => read_hex_data it data).
Proof.
  refine (local_rec (fun x it => read_hex_data it x) (fun x it => read_hex_data it x) ltac:(intros; reflexivity) ltac:(intros; split; reflexivity) _ data).
  intros x p q t t' L IH. cbn [read_hex_data]. destruct (p_code p =? 0); [apply sim_back|]. destruct (p_code p =? 310); [|apply sim_err]. apply sim_cons, sim_plain. intros y _.
  exact (IH (x ++ y) q t t' (le_n _) L).
Qed.
Lemma thumbnail_local : local read_thumbnail read_thumbnail.
Proof.
  intros q t t' L. unfold read_thumbnail. apply sim_bind; [exact L| |].
  - revert q t t' L. apply local_intro; [reflexivity|intros; split; reflexivity|]. intros p q t t' L. cbn [read_thumbnail_bytes]. destruct (p_code p =? 0); [apply sim_back|]. destruct (p_code p =? 90); [|apply sim_err].
    apply sim_cons, sim_plain. intros _ _. apply sim_bind; [exact L|apply hex_local, L|]. intros data q0 t0 t0' L0. apply sim_plain. intros d _. apply sim_ok.
  - intros [data|] q0 t0 t0' L0; [|apply sim_ok]. apply sim_plain. intros [ok d] _. apply sim_ok.
Qed.
Lemma header_none_local : forall cur h, local (header_loop header_spec None cur h) (header_loop header_spec None cur h).
Proof.
  intros cur h. refine (local_rec (fun x it => header_loop header_spec None (fst x) (snd x) it) (fun x it => header_loop header_spec None (fst x) (snd x) it) ltac:(intros; reflexivity) ltac:(intros; split; reflexivity) _ (cur, h)).
  intros [c x] p q t t' L IH. cbn [header_loop fst snd]. destruct (p_code p =? 0); [apply sim_back|]. destruct (p_code p =? 9).
  - apply sim_cons, sim_plain. intros n _. exact (IH (Some n, x) q t t' (le_n _) L).
  - destruct c as [n|]; [|apply sim_err]. apply sim_cons, sim_plain. intros x' _. destruct (_ && _); exact (IH (Some n, x') q t t' (le_n _) L).
Qed.

(** * Sections *)
Lemma section_local sw sw' env name d : local (read_section sw env name true d) (read_section sw' env name true d).
Proof.
  intros q t t' L. unfold read_section, read_header.
  destruct (seqb name (str "HEADER")); [apply sim_bind; [exact L|apply header_none_local, L|]; intros; apply local_ret|].
  destruct (seqb name (str "CLASSES")); [apply sim_bind; [exact L|apply read_classes_local, L|]; intros; apply local_ret|].
  destruct (seqb name (str "TABLES")); [apply sim_bind; [exact L|apply section_item_local; [apply read_table_local|pose proof (length_le q t t' L); lia|exact L]|]; intros; apply local_ret|].
  destruct (seqb name (str "BLOCKS")); [apply sim_bind; [exact L|apply section_item_local; [apply read_block_local|pose proof (length_le q t t' L); lia|exact L]|]; intros; apply local_ret|].
  destruct (seqb name (str "ENTITIES")); [apply sim_bind; [exact L|apply entities_local, L|]; intros; apply local_ret|].
  destruct (seqb name (str "OBJECTS")); [apply sim_bind; [exact L|apply read_objects_local, L|]; intros; apply local_ret|].
  destruct (seqb name (str "THUMBNAILIMAGE")); [apply sim_bind; [exact L|apply thumbnail_local, L|]; intros; apply local_ret|].
  apply sim_bind_only; [exact L|apply swallow_section_local, L|]. apply local_ret.
Qed.
(** Sections other than the header are read alike whatever is known about the encoding. *)
Lemma section_plain sw sw' env name d : seqb name (str "HEADER") = false -> local (read_section sw env name false d) (read_section sw' env name false d).
Proof.
  intros N q t t' L. unfold read_section. rewrite N.
  destruct (seqb name (str "CLASSES")); [apply sim_bind; [exact L|apply read_classes_local, L|]; intros; apply local_ret|].
  destruct (seqb name (str "TABLES")); [apply sim_bind; [exact L|apply section_item_local; [apply read_table_local|pose proof (length_le q t t' L); lia|exact L]|]; intros; apply local_ret|].
  destruct (seqb name (str "BLOCKS")); [apply sim_bind; [exact L|apply section_item_local; [apply read_block_local|pose proof (length_le q t t' L); lia|exact L]|]; intros; apply local_ret|].
  destruct (seqb name (str "ENTITIES")); [apply sim_bind; [exact L|apply entities_local, L|]; intros; apply local_ret|].
  destruct (seqb name (str "OBJECTS")); [apply sim_bind; [exact L|apply read_objects_local, L|]; intros; apply local_ret|].
  destruct (seqb name (str "THUMBNAILIMAGE")); [apply sim_bind; [exact L|apply thumbnail_local, L|]; intros; apply local_ret|].
  apply sim_bind_only; [exact L|apply swallow_section_local, L|]. apply local_ret.
Qed.
Lemma header_none_true : forall it cur h x r, header_loop header_spec None cur h it = Ok (x, r) -> snd x = true.
Proof.
  induction it as [|[p|e] it IH]; intros cur h x r; cbn [header_loop]; [intros Y; injection Y as <- _; reflexivity| |discriminate].
  destruct (p_code p =? 0); [intros Y; injection Y as <- _; reflexivity|]. destruct (p_code p =? 9).
  - destruct (assert_string p) as [n|]; cbn [bind]; [apply IH|discriminate].
  - destruct cur as [n|]; [|discriminate]. destruct (set_header_value _ _ _ _) as [h'|]; cbn [bind]; [|discriminate]. destruct (_ && _); apply IH.
Qed.
Lemma section_bool sw env name u d it x r : read_section sw env name u d it = Ok (x, r) -> seqb name (str "HEADER") = false \/ u = true -> snd x = u.
Proof.
  unfold read_section. intros H [N|U].
  - rewrite N in H. repeat (match type of H with (if ?c then _ else _) = _ => destruct c end; [match type of H with bind ?m _ = _ => destruct m as [[? ?]|]; cbn [bind] in H; [injection H as <- _; reflexivity|discriminate H] end|]).
    destruct (swallow_section it); cbn [bind] in H; [injection H as <- _; reflexivity|discriminate H].
  - subst u. destruct (seqb name (str "HEADER")).
    + unfold read_header in H. destruct (header_loop _ _ _ _ _) as [[y r']|] eqn:E; cbn [bind] in H; [|discriminate H]. injection H as <- _. cbn [snd]. exact (header_none_true _ _ _ _ _ E).
    + repeat (match type of H with (if ?c then _ else _) = _ => destruct c end; [match type of H with bind ?m _ = _ => destruct m as [[? ?]|]; cbn [bind] in H; [injection H as <- _; reflexivity|discriminate H] end|]).
      destruct (swallow_section it); cbn [bind] in H; [injection H as <- _; reflexivity|discriminate H].
Qed.

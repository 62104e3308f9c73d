(** Soundness of the checker of SpecCheck.v: a specification that passes survives a save and load. *)
From Verif Require Import Base TextModel TextProofs F64Model F64Proofs CodePairModel CodePairSpec VersionModel StreamModel
  ExtDataModel ExtDataSpec ExtDataProofs BitsModel BitsProofs SpecModel SpecSpec SpecCheck.
Open Scope Z_scope.
Set Default Goal Selector "!".
Ltac Zify.zify_post_hook ::= Z.div_mod_to_equations.

(** * Conversions *)
Lemma existsb_eqb_In z l : existsb (Z.eqb z) l = true <-> In z l.
Proof.
  rewrite existsb_exists. split; [intros [x [H E]]; apply Z.eqb_eq in E; subst; exact H|].
  intros H. exists z. split; [exact H|apply Z.eqb_refl].
Qed.
Lemma in_range_spec lo hi a b z : in_range lo hi a b = true -> a <= z <= b -> lo <= z <= hi.
Proof. unfold in_range. lia. Qed.
Lemma as_u32_as_i32 z : 0 <= z < 2 ^ 32 -> as_u32 (as_i32 z) = z.
Proof. intros H. unfold as_u32, as_i32, wrap_signed. change (2 ^ 32) with 4294967296 in *. cbv zeta. destruct (_ <? _) eqn:E; lia. Qed.

Lemma conv_sound kn code r w k x : conv_ok kn code r w k = true -> has_kind k x ->
  (kn = true -> k <> KU32 -> forall z, x = FInt z -> int_fits code z) ->
  exists val, apply_w w x = Ok val /\ apply_r r (mk_pair code val) = Ok x.
Proof.
  intros Hc Hk Hf. destruct k; cbn [has_kind] in Hk.
  - destruct Hk as [b ->]. destruct r, w; try discriminate Hc; eexists; split; try reflexivity; destruct b; reflexivity.
  - destruct Hk as [z [-> Hz]]. destruct r, w; try discriminate Hc; cbn [conv_ok] in Hc.
    + apply orb_true_iff in Hc. assert (R : -32768 <= z <= 32767).
      { destruct Hc as [Hc|Hc]; [exact (in_range_spec _ _ _ _ _ Hc Hz)|].
        apply andb_true_iff in Hc. destruct Hc as [-> Hc]. unfold short_code in Hc.
        specialize (Hf eq_refl ltac:(discriminate) z eq_refl). unfold int_fits in Hf.
        destruct (expected_type code) as [[]|]; try discriminate Hc. exact Hf. }
      eexists. split; [reflexivity|]. cbn. rewrite as_i16_id; [reflexivity|unfold is_i16; lia].
    + apply orb_true_iff in Hc. assert (R : - 2147483648 <= z <= 2147483647).
      { destruct Hc as [Hc|Hc]; [exact (in_range_spec _ _ _ _ _ Hc Hz)|].
        apply andb_true_iff in Hc. destruct Hc as [-> Hc]. unfold int_code in Hc.
        specialize (Hf eq_refl ltac:(discriminate) z eq_refl). unfold int_fits in Hf.
        destruct (expected_type code) as [[]|]; try discriminate Hc; lia. }
      eexists. split; [reflexivity|]. cbn. rewrite as_i32_id; [reflexivity|unfold is_i32; lia].
    + eexists. split; reflexivity.
    + eexists. split; [reflexivity|]. cbn. pose proof (in_range_spec _ _ _ _ _ Hc Hz) as R.
      rewrite as_i16_id; [|unfold is_i16; lia]. unfold as_u8. do 2 f_equal. lia.
    + eexists. split; [reflexivity|]. cbn. pose proof (in_range_spec _ _ _ _ _ Hc Hz) as R.
      rewrite f64_to_int_of_Z; [reflexivity|lia|lia].
  - destruct Hk as [z [-> Hz]]. destruct r, w; try discriminate Hc. eexists. split; [reflexivity|].
    cbn. rewrite as_u32_as_i32; [reflexivity|exact Hz].
  - destruct Hk as [z [-> Hz]]. destruct r, w; try discriminate Hc; cbn [conv_ok] in Hc;
      rewrite forallb_forall in Hc; specialize (Hc z Hz); apply andb_true_iff in Hc; destruct Hc as [Hi Hr];
      eexists; (split; [reflexivity|]); cbn; unfold enum_of.
    + rewrite as_i16_id by exact Hr. rewrite Hi. reflexivity.
    + rewrite as_i32_id by exact Hr. rewrite Hi. reflexivity.
  - destruct Hk as [d [-> _]]. destruct r, w; try discriminate Hc; eexists; split; reflexivity.
  - destruct Hk as [s ->]. destruct r, w; try discriminate Hc; eexists; split; reflexivity.
  - destruct Hk as [b ->]. destruct r, w; try discriminate Hc; eexists; split; reflexivity.
  - destruct Hk as [h [-> Hh]]. destruct r, w; try discriminate Hc. eexists; split; [reflexivity|].
    cbn [apply_r]. unfold as_handle, assert_string. cbn [p_value bind]. rewrite handle_roundtrip; [reflexivity|unfold is_u64; lia].
  - destruct r, w; discriminate Hc.
  - destruct r, w; discriminate Hc.
  - destruct r, w; discriminate Hc.
  - destruct r, w; discriminate Hc.
  - subst x. assert (E : match apply_w w v with
      | Ok val => match apply_r r (mk_pair code val), v with Ok (FF64 a), FF64 b => (a =? b)%N | _, _ => false end
      | Err _ => false end = true) by (destruct r, w; exact Hc).
    destruct (apply_w w v) as [val|]; [|discriminate E]. exists val. split; [reflexivity|].
    destruct (apply_r r (mk_pair code val)) as [[]|]; try discriminate E. destruct v; try discriminate E.
    apply N.eqb_eq in E. subst. reflexivity.
  - destruct r, w; discriminate Hc.
  - destruct Hk as [z [-> Hz]]. destruct r, w; try discriminate Hc. eexists. split; [reflexivity|].
    cbn [apply_r]. unfold as_i32, assert_i32. cbn [p_value bind]. rewrite f64_to_int_of_Z by lia. reflexivity.
Qed.

Lemma shape_sound w k x : wshape w k = true -> has_kind k x -> exists val, apply_w w x = Ok val.
Proof.
  intros Hc Hk. destruct k; cbn [has_kind] in Hk;
    try (destruct w; discriminate Hc);
    try (destruct Hk as [y ->]; destruct w; try discriminate Hc; eexists; reflexivity);
    try (destruct Hk as [y [-> _]]; destruct w; try discriminate Hc; eexists; reflexivity).
  subst x. assert (E : match apply_w w v with Ok _ => true | Err _ => false end = true) by (destruct w; exact Hc).
  destruct (apply_w w v) as [val|]; [exists val; reflexivity|discriminate E].
Qed.
Lemma wtype_sound w x val : apply_w w x = Ok val -> val_type val = wtype w.
Proof. destruct w, x; intros E; try discriminate E; injection E as <-; reflexivity. Qed.
Lemma ltype_sound l x : val_type (apply_l l x) = ltype l.
Proof. destruct l; reflexivity. Qed.
Lemma accepts_sound r p : accepts r (val_type (p_value p)) = true -> exists y, apply_r r p = Ok y.
Proof.
  intros H. destruct p as [c val]. cbn [p_value] in H.
  destruct val, r; try discriminate H; eexists; reflexivity.
Qed.

(** The pairs a source stands for. *)
Definition realises (item : store) (s : src) (p : pair) : Prop :=
  match s with
  | SVal o w k kn code =>
      exists x, has_kind k x /\ apply_w w x = Ok (p_value p) /\ p_code p = code /\
        (kn = true -> k <> KU32 -> forall z, x = FInt z -> int_fits code z) /\
        match o with Some u => x = item u | None => True end
  | SConst q => p = q
  | SType t => val_type (p_value p) = t
  end.
Lemma src_safe_sound item s r p : src_safe s r = true -> realises item s p -> exists y, apply_r r p = Ok y.
Proof.
  intros Hs Hr. destruct s as [o w k kn code|q|t]; cbn [src_safe realises] in *.
  - destruct Hr as (x & Hk & Hw & Hc & _). apply orb_true_iff in Hs. destruct Hs as [Hs|Hs].
    + apply accepts_sound. rewrite (wtype_sound _ _ _ Hw). exact Hs.
    + destruct r, w, k; try discriminate Hs. cbn [has_kind] in Hk. destruct Hk as [h [-> Hh]].
      cbn [apply_w] in Hw. injection Hw as Hw. cbn [apply_r]. unfold as_handle, assert_string. rewrite <- Hw. cbn [bind].
      rewrite handle_roundtrip; [eexists; reflexivity|unfold is_u64; lia].
  - subst q. destruct (apply_r r p) as [y|]; [exists y; reflexivity|discriminate Hs].
  - apply accepts_sound. rewrite Hr. exact Hs.
Qed.

(** * Stores *)
Lemma upd_eq st s x : upd st s x s = x.
Proof. unfold upd. rewrite String.eqb_refl. reflexivity. Qed.
Lemma upd_ne st s x u : u <> s -> upd st s x u = st u.
Proof. intros H. unfold upd. destruct (String.eqb_spec u s); [contradiction|reflexivity]. Qed.
Lemma memb_In s l : memb s l = true <-> In s l.
Proof.
  unfold memb. rewrite existsb_exists. split; [intros [x [H E]]; apply String.eqb_eq in E; subst; exact H|].
  intros H. exists s. split; [exact H|apply String.eqb_refl].
Qed.
Lemma simple_eqb_eq a b : simple_eqb a b = true -> a = b.
Proof.
  destruct a as [x|x|x|x|x|x|x|x|x], b as [y|y|y|y|y|y|y|y|y]; cbn [simple_eqb]; intros H;
    try discriminate H; try (destruct x; discriminate H).
  - apply eqb_prop in H. subst. reflexivity.
  - apply Z.eqb_eq in H. subst. reflexivity.
  - apply N.eqb_eq in H. subst. reflexivity.
  - apply seqb_eq in H. subst. reflexivity.
  - apply seqb_eq in H. subst. reflexivity.
  - apply N.eqb_eq in H. subst. reflexivity.
  - destruct x, y; try discriminate H. reflexivity.
Qed.

(** * Running *)
Lemma run_mono arms eof : forall fuel it st regs x, run arms eof fuel it st regs = Ok x -> run arms eof (S fuel) it st regs = Ok x.
Proof.
  induction fuel as [|f IH]; intros it st regs x H; [discriminate H|].
  change (run arms eof (S (S f)) it st regs) with
    (match it with
      | [] => if eof then Ok (st, regs, []) else Err UnexpectedEndOfInput
      | Err e :: _ => Err e
      | Ok p :: r =>
          if p_code p =? 0 then Ok (st, regs, it)
          else let? (x, r') := step arms p st regs r in run arms eof (S f) r' (fst x) (snd x)
      end).
  cbn [run] in H. destruct it as [|[p|e] r]; [exact H| |exact H].
  destruct (p_code p =? 0); [exact H|]. destruct (step arms p st regs r) as [[y r']|e]; cbn [bind] in *; [|discriminate H].
  apply IH. exact H.
Qed.
Lemma run_more arms eof n : forall fuel it st regs x, run arms eof fuel it st regs = Ok x -> run arms eof (n + fuel) it st regs = Ok x.
Proof. induction n as [|n IH]; intros fuel it st regs x H; [exact H|]. apply run_mono, IH, H. Qed.

Definition reads (arms : list arm) (ps : list pair) (st : store) (regs : list Z) (st' : store) (regs' : list Z) : Prop :=
  forall eof rest fuel x, outside_xdata rest -> run arms eof fuel rest st' regs' = Ok x ->
    run arms eof (length ps + fuel) (map Ok ps ++ rest) st regs = Ok x.
Definition okhead (ps : list pair) : Prop := match ps with [] => True | p :: _ => p_code p = 1001 \/ p_code p < 1000 end.
Lemma okhead_outside ps rest : okhead ps -> outside_xdata rest -> outside_xdata (map Ok ps ++ rest).
Proof. destruct ps as [|p ps]; cbn; auto. Qed.
Lemma okhead_app a b : okhead a -> okhead b -> okhead (a ++ b).
Proof. destruct a; cbn; auto. Qed.

Lemma reads_nil arms st regs : reads arms [] st regs st regs.
Proof. intros eof rest fuel x _ H. exact H. Qed.
Lemma reads_app arms ps qs st regs st1 regs1 st2 regs2 : okhead qs ->
  reads arms ps st regs st1 regs1 -> reads arms qs st1 regs1 st2 regs2 -> reads arms (ps ++ qs) st regs st2 regs2.
Proof.
  intros Hq H1 H2 eof rest fuel x Ho H. rewrite map_app, <- app_assoc, app_length, <- Nat.add_assoc.
  apply H1; [apply okhead_outside; assumption|]. apply H2; assumption.
Qed.
Lemma reads_step arms p st regs st' regs' : p_code p <> 0 -> (forall it, step arms p st regs it = Ok (st', regs', it)) ->
  reads arms [p] st regs st' regs'.
Proof.
  intros Hp Hs eof rest fuel x _ H. cbn [length map app Nat.add run]. replace (p_code p =? 0) with false by lia.
  rewrite Hs. exact H.
Qed.

(** * The invariant *)
Definition eval_view (item : store) (v : version) (s : string) (w : view) : fval :=
  match w with
  | VSelf => item s
  | VComp u j => FList (map (fun el => nth j (as_list el) (FInt 0)) (as_list (item u)))
  | VRec d parts =>
      FList (map (fun el => FList (fold_left (fun acc '(cs, j) =>
        if forallb (rholds v (as_list el)) cs then set_nth j (nth j (as_list el) (FInt 0)) acc else acc) parts d)) (as_list (item s)))
  | VJunk => FInt 0
  end.
Definition meets (item : store) (v : version) (s : string) (w : view) (x : fval) : Prop :=
  match w with VJunk => True | _ => x = eval_view item v s w end.

Section Sound.
  Variable t : itype.
  Variable v : version.
  Variable wh : bool.
  Variable item : store.
  Hypothesis Hty : well_typed t item.
  Let sp := it_spec t.
  Let arms := sp_arms (it_spec t).

  Definition expect (ab : abs) (s : string) (x : fval) : Prop :=
    match find (fun e => String.eqb (e_slot e) s && all_hold v wh item (e_conds e)) (ab_done ab) with
    | Some e => meets item v s (e_view e) x
    | None => x = default_of (it_spec t) s
    end.
  Definition Inv (ex : list string) (ab : abs) (st : store) (regs : list Z) : Prop :=
    regs = ab_regs ab /\ forall s, memb s ex = false -> expect ab s (st s).

  Lemma kind_sound s : has_kind (kind_of t s) (item s).
  Proof.
    unfold kind_of, field_of. destruct (find _ (it_fields t)) as [f|] eqn:E; [|exact Logic.I].
    apply find_some in E. destruct E as [Hin E]. apply String.eqb_eq in E. subst s. apply (Hty f Hin).
  Qed.
  Lemma known_sound s code : known t s code = true -> fits (kind_of t s) code (item s).
  Proof.
    unfold known, kind_of, field_of. destruct (find _ (it_fields t)) as [f|] eqn:E; [|discriminate].
    apply find_some in E. destruct E as [Hin E]. apply String.eqb_eq in E. subst s. intros Hc.
    apply existsb_eqb_In in Hc. pose proof (proj2 (Hty f Hin)) as H. rewrite Forall_forall in H. apply H, Hc.
  Qed.

  Lemma holds_static c st st' : static c = true -> holds v wh st c = holds v wh st' c.
  Proof. destruct c; try discriminate; reflexivity. Qed.
  Lemma never_false cs : never v wh cs = true -> all_hold v wh item cs = false.
  Proof.
    unfold never. intros H. apply existsb_exists in H. destruct H as [c [Hin Hc]]. apply andb_true_iff in Hc. destruct Hc as [Hs Hn].
    unfold all_hold. destruct (forallb (holds v wh item) cs) eqn:E; [|reflexivity]. rewrite forallb_forall in E.
    specialize (E c Hin). rewrite (holds_static c item st0 Hs) in E. rewrite E in Hn. discriminate Hn.
  Qed.
  Lemma always_true cs : always v wh cs = true -> all_hold v wh item cs = true.
  Proof.
    unfold always, all_hold. rewrite !forallb_forall. intros H c Hc. specialize (H c Hc). apply andb_true_iff in H.
    destruct H as [Hs H]. rewrite (holds_static c item st0 Hs). exact H.
  Qed.

  Lemma expect_add ab s cs w u x : expect (add s cs w ab) u x =
    if String.eqb s u && all_hold v wh item cs then meets item v u w x else expect ab u x.
  Proof.
    unfold expect, add. cbn [ab_done find e_slot e_conds e_view].
    destruct (String.eqb s u && all_hold v wh item cs); reflexivity.
  Qed.
  Lemma expect_fresh ab s x : has_entry s ab = false -> expect ab s x = (x = default_of sp s).
  Proof.
    unfold has_entry, expect. intros H. destruct (find _ (ab_done ab)) as [e|] eqn:E; [|reflexivity].
    apply find_some in E. destruct E as [Hin E]. apply andb_true_iff in E. destruct E as [E _].
    exfalso. assert (existsb (fun e => String.eqb (e_slot e) s) (ab_done ab) = true) as C; [|congruence].
    apply existsb_exists. exists e. split; [exact Hin|exact E].
  Qed.
  Lemma fresh_spec ex ab st regs s : fresh t s ab = true -> Inv ex ab st regs -> memb s ex = false -> st s = FList [].
  Proof.
    unfold fresh. intros H [_ HI] Hx. apply andb_true_iff in H. destruct H as [H1 H2].
    specialize (HI s Hx). rewrite expect_fresh in HI by (destruct (has_entry s ab); [discriminate H1|reflexivity]).
    rewrite HI. unfold sp. destruct (default_of (it_spec t) s) as [| | | | | | | |[|]]; try discriminate H2. reflexivity.
  Qed.

  Lemma Inv_add_idle ex ab st regs s cs w : all_hold v wh item cs = false -> Inv ex ab st regs -> Inv ex (add s cs w ab) st regs.
  Proof.
    intros Hc [Hr HI]. split; [exact Hr|]. intros u Hu. rewrite expect_add, Hc, andb_false_r. apply HI, Hu.
  Qed.
  Lemma Inv_upd_ex ex ab st regs s x : memb s ex = true -> Inv ex ab st regs -> Inv ex ab (upd st s x) regs.
  Proof.
    intros Hs [Hr HI]. split; [exact Hr|]. intros u Hu. destruct (String.eqb_spec u s) as [->|Hne]; [congruence|].
    rewrite upd_ne by exact Hne. apply HI, Hu.
  Qed.
  Lemma Inv_add ex ab st regs s cs w x : all_hold v wh item cs = true -> (memb s ex = false -> meets item v s w x) ->
    Inv ex ab st regs -> Inv ex (add s cs w ab) (upd st s x) regs.
  Proof.
    intros Hc Hx [Hr HI]. split; [exact Hr|]. intros u Hu. rewrite expect_add, Hc, andb_true_r.
    destruct (String.eqb_spec s u) as [->|Hne].
    - rewrite upd_eq. apply Hx, Hu.
    - rewrite upd_ne by congruence. apply HI, Hu.
  Qed.
  Lemma Inv_upd_same ex ab st regs s x : x = default_of sp s -> has_entry s ab = false ->
    Inv ex ab st regs -> Inv ex ab (upd st s x) regs.
  Proof.
    intros -> Hn [Hr HI]. split; [exact Hr|]. intros u Hu. destruct (String.eqb_spec u s) as [->|Hne].
    - rewrite upd_eq, expect_fresh by exact Hn. reflexivity.
    - rewrite upd_ne by exact Hne. apply HI, Hu.
  Qed.
  Lemma Inv_upd_all_ex ex ab regs : forall ss vs st, forallb (fun u => memb u ex) ss = true -> Inv ex ab st regs -> Inv ex ab (upd_all st ss vs) regs.
  Proof.
    induction ss as [|s ss IH]; intros vs st H HI; [exact HI|]. destruct vs as [|x vs]; [exact HI|]. cbn [upd_all].
    cbn [forallb] in H. apply andb_true_iff in H. destruct H as [H1 H2]. apply IH; [exact H2|]. apply Inv_upd_ex; assumption.
  Qed.

  (** One action. *)
  Definition delivers (cs : list cond) (s : src) : Prop :=
    (in_loop cs = false -> all_hold v wh item cs = true) /\
    match s with SVal (Some _) _ _ _ _ => all_hold v wh item cs = true | _ => True end.

  Lemma always_reads_sound s r y p : always_reads s r y = true -> realises item s p -> apply_r r p = Ok y.
  Proof.
    unfold always_reads. intros H Hr. destruct s as [[o|] w k kn code|q|ty]; try discriminate H. destruct k; try discriminate H.
    cbn [realises] in Hr. destruct Hr as (x & [b ->] & Hw & Hc & _).
    assert (Hb : In b [true; false]) by (destruct b; cbn; auto).
    rewrite forallb_forall in H. specialize (H b Hb). rewrite Hw in H. destruct p as [pc pv]. cbn [p_code p_value] in *. subst pc.
    destruct (apply_r r (mk_pair code pv)) as [z|]; [|discriminate H]. apply simple_eqb_eq in H. subst z. reflexivity.
  Qed.
  Lemma spoil_sound ex cs ab s u r ab' p st regs : spoil ex cs ab s u r = Some ab' -> delivers cs s -> realises item s p -> Inv ex ab st regs ->
    exists y, apply_r r p = Ok y /\ forall x, Inv ex ab' (upd st u x) regs.
  Proof.
    unfold spoil. intros H Hd Hr HI. destruct (src_safe s r) eqn:B; [|discriminate H].
    destruct (src_safe_sound item s r p B Hr) as [y Hy]. exists y. split; [exact Hy|]. intros x.
    destruct (memb u ex) eqn:Hu; [injection H as <-; apply Inv_upd_ex; assumption|].
    destruct (in_loop cs) eqn:Hl; [discriminate H|]. injection H as <-. apply Inv_add; [exact (proj1 Hd Hl)|intros _; exact Logic.I|exact HI].
  Qed.
  Lemma spoil_idle ex cs ab s u r ab' st regs : spoil ex cs ab s u r = Some ab' -> all_hold v wh item cs = false -> Inv ex ab st regs -> Inv ex ab' st regs.
  Proof.
    unfold spoil. intros H Hf HI. destruct (src_safe s r); [|discriminate H]. destruct (memb u ex); [injection H as <-; exact HI|].
    destruct (in_loop cs); [discriminate H|]. injection H as <-. apply Inv_add_idle; assumption.
  Qed.
  Lemma spoil_loop ex ab s u r ab' : spoil ex [CNe []] ab s u r = Some ab' -> ab' = ab /\ memb u ex = true /\ src_safe s r = true.
  Proof.
    unfold spoil. cbn [in_loop]. intros H. destruct (src_safe s r); [|discriminate H]. destruct (memb u ex); [|discriminate H].
    injection H as <-. repeat split; reflexivity.
  Qed.

  Lemma check_act_sound ex cs ab s a ab' p st regs :
    check_act t v wh ex cs ab s a = Some ab' -> delivers cs s -> realises item s p -> Inv ex ab st regs ->
    exists st' regs', (forall it, act a p st regs it = Ok (st', regs', it)) /\ Inv ex ab' st' regs'.
  Proof.
    intros H Hd Hr HI.
    destruct a as [u r|u r|u d j r|u j r|us m|u|u|n z|n|n tbl dm|]; cbn [check_act] in H; try discriminate H.
    - assert (S1 : (if always_reads s r (default_of (it_spec t) u) && negb (has_entry u ab) then Some ab else spoil ex cs ab s u r) = Some ab' ->
        exists st' regs', (forall it, act (ASet u r) p st regs it = Ok (st', regs', it)) /\ Inv ex ab' st' regs').
      { intros E. destruct (always_reads s r (default_of (it_spec t) u) && negb (has_entry u ab)) eqn:B.
        - injection E as <-. apply andb_true_iff in B. destruct B as [B1 B2]. pose proof (always_reads_sound s r _ p B1 Hr) as Ey.
          eexists. exists regs. split; [intros it; cbn [act]; rewrite Ey; reflexivity|].
          apply Inv_upd_same; [reflexivity|apply negb_true_iff, B2|exact HI].
        - destruct (spoil_sound ex cs ab s u r ab' p st regs E Hd Hr HI) as (y & Hy & Hm).
          eexists. exists regs. split; [intros it; cbn [act]; rewrite Hy; reflexivity|]. apply Hm. }
      destruct s as [[u'|] w k kn code|q|ty].
      + destruct (String.eqb u u' && conv_ok kn code r w k) eqn:B; [|exact (S1 H)]. injection H as <-.
        apply andb_true_iff in B. destruct B as [B1 B2]. apply String.eqb_eq in B1. subst u'.
        cbn [realises] in Hr. destruct Hr as (x & Hk & Hw & Hc & Hf & ->).
        destruct (conv_sound _ _ _ _ _ _ B2 Hk Hf) as (val & Ew & Er). rewrite Ew in Hw. injection Hw as Hw.
        assert (p = mk_pair code val) as -> by (destruct p; cbn in *; subst; reflexivity).
        exists (upd st u (item u)), regs. split; [intros it; cbn [act]; rewrite Er; reflexivity|].
        apply Inv_add; [exact (proj2 Hd)|intros _; reflexivity|exact HI].
      + exact (S1 H).
      + cbn [realises] in Hr. subst q. destruct (apply_r r p) as [y|] eqn:Ey; [|discriminate H].
        destruct (simple_eqb y (default_of (it_spec t) u) && negb (has_entry u ab)) eqn:B.
        * injection H as <-. apply andb_true_iff in B. destruct B as [B1 B2]. apply simple_eqb_eq in B1.
          exists (upd st u y), regs. split; [intros it; cbn [act]; rewrite Ey; reflexivity|].
          apply Inv_upd_same; [exact B1|destruct (has_entry u ab); [discriminate B2|reflexivity]|exact HI].
        * exact (S1 H).
      + exact (S1 H).
    - destruct (spoil_sound ex cs ab s u r ab' p st regs H Hd Hr HI) as (y & Hy & Hm).
      eexists. exists regs. split; [intros it; cbn [act]; rewrite Hy; reflexivity|]. apply Hm.
    - destruct (spoil_sound ex cs ab s u r ab' p st regs H Hd Hr HI) as (y & Hy & Hm).
      eexists. exists regs. split; [intros it; cbn [act]; rewrite Hy; reflexivity|]. apply Hm.
    - destruct m; [discriminate H|]. destruct (forallb (fun u => memb u ex) us && src_safe s RI16) eqn:B; [|discriminate H].
      injection H as <-. apply andb_true_iff in B. destruct B as [B1 B2]. destruct (src_safe_sound item s RI16 p B2 Hr) as [y Hy].
      cbn [apply_r] in Hy. destruct (assert_i16 p) as [z|] eqn:Ez; [|discriminate Hy].
      eexists. exists regs. split; [intros it; cbn [act apply_mr]; rewrite Ez; cbn [bind]; reflexivity|].
      apply Inv_upd_all_ex; assumption.
    - destruct (always v wh cs); [|discriminate H]. injection H as <-. exists st. eexists. split; [intros it; reflexivity|].
      destruct HI as [-> HI]. split; [reflexivity|exact HI].
    - destruct (always v wh cs); [|discriminate H]. injection H as <-. exists st. eexists. split; [intros it; reflexivity|].
      destruct HI as [-> HI]. split; [reflexivity|exact HI].
    - destruct s as [[u'|] w k kn code|q|ty]; try discriminate H. cbn [realises] in Hr. subst q.
      destruct (p_value p) as [| | | | |x|] eqn:Ep; try discriminate H.
      destruct (mark tbl dm x) as [z|] eqn:Ea.
      + destruct (always v wh cs); [|discriminate H]. injection H as <-. exists st. eexists.
        split; [intros it; cbn [act]; unfold assert_string; rewrite Ep; cbn [bind]; rewrite Ea; reflexivity|].
        destruct HI as [-> HI]. split; [reflexivity|exact HI].
      + injection H as <-. exists st, regs.
        split; [intros it; cbn [act]; unfold assert_string; rewrite Ep; cbn [bind]; rewrite Ea; reflexivity|exact HI].
  Qed.
  Lemma check_act_idle ex cs ab s a ab' st regs :
    check_act t v wh ex cs ab s a = Some ab' -> all_hold v wh item cs = false -> Inv ex ab st regs -> Inv ex ab' st regs.
  Proof.
    intros H Hf HI.
    assert (Hn : always v wh cs = false).
    { destruct (always v wh cs) eqn:E; [|reflexivity]. rewrite (always_true cs E) in Hf. discriminate Hf. }
    assert (Skip : forall b : bool, (if b then Some ab else None) = Some ab' -> Inv ex ab' st regs).
    { intros [|] E; [injection E as <-; exact HI|discriminate E]. }
    assert (Sp : forall u r, spoil ex cs ab s u r = Some ab' -> Inv ex ab' st regs).
    { intros u r E. exact (spoil_idle ex cs ab s u r ab' st regs E Hf HI). }
    assert (Sk : forall (b : bool) u r, (if b then Some ab else spoil ex cs ab s u r) = Some ab' -> Inv ex ab' st regs).
    { intros [|] u r E; [injection E as <-; exact HI|exact (Sp u r E)]. }
    destruct a as [u r|u r|u d j r|u j r|us m|u|u|n z|n|n tbl dm|]; cbn [check_act] in H; try discriminate H;
      try exact (Skip _ H); try exact (Sp _ _ H); try (rewrite Hn in H; discriminate H).
    - destruct s as [[u'|] w k kn code|q|ty]; try (revert H; apply Sk).
      + destruct (String.eqb u u' && conv_ok kn code r w k); [|(revert H; apply Sk)]. injection H as <-.
        apply Inv_add_idle; assumption.
      + destruct (apply_r r q); [|discriminate H]. destruct (simple_eqb _ _ && _); [injection H as <-; exact HI|(revert H; apply Sk)].
    - destruct m; [discriminate H|exact (Skip _ H)].
    - destruct s as [[u'|] w k kn code|q|ty]; try discriminate H. destruct (p_value q); try discriminate H.
      destruct (mark tbl dm _); [rewrite Hn in H; discriminate H|injection H as <-; exact HI].
  Qed.
  Lemma check_act_loop ex ab s a ab' : (forall o w k kn code, s = SVal o w k kn code -> o = None) ->
    check_act t v wh ex [CNe []] ab s a = Some ab' -> ab' = ab.
  Proof.
    intros Hs H. assert (Skip : forall b : bool, (if b then Some ab else None) = Some ab' -> ab' = ab).
    { intros [|] E; [injection E as <-; reflexivity|discriminate E]. }
    assert (Sp : forall u r, spoil ex [CNe []] ab s u r = Some ab' -> ab' = ab).
    { intros u r E. apply (spoil_loop ex ab s u r ab' E). }
    assert (Sk : forall (b : bool) u r, (if b then Some ab else spoil ex [CNe []] ab s u r) = Some ab' -> ab' = ab).
    { intros [|] u r E; [injection E as <-; reflexivity|exact (Sp u r E)]. }
    destruct a as [u r|u r|u d j r|u j r|us m|u|u|n z|n|n tbl dm|]; cbn [check_act] in H; try discriminate H;
      try exact (Skip _ H); try exact (Sp _ _ H).
    - destruct s as [[u'|] w k kn code|q|ty]; try (revert H; apply Sk).
      + specialize (Hs _ _ _ _ _ eq_refl). discriminate Hs.
      + destruct (apply_r r q); [|discriminate H]. destruct (simple_eqb _ _ && _); [injection H as <-; reflexivity|(revert H; apply Sk)].
    - destruct m; [discriminate H|exact (Skip _ H)].
    - destruct s as [[u'|] w k kn code|q|ty]; try discriminate H. destruct (p_value q); try discriminate H.
      destruct (mark tbl dm _); [discriminate H|injection H as <-; reflexivity].
  Qed.

  Lemma check_acts_sound ex cs s p : delivers cs s -> realises item s p -> forall l ab ab' st regs,
    check_acts t v wh ex cs ab s l = Some ab' -> Inv ex ab st regs ->
    exists st' regs', (forall it, acts l p st regs it = Ok (st', regs', it)) /\ Inv ex ab' st' regs'.
  Proof.
    intros Hd Hr. induction l as [|a l IH]; intros ab ab' st regs H HI; cbn [check_acts] in H.
    - injection H as <-. exists st, regs. split; [reflexivity|exact HI].
    - destruct (check_act t v wh ex cs ab s a) as [ab1|] eqn:E; [|discriminate H].
      destruct (check_act_sound ex cs ab s a ab1 p st regs E Hd Hr HI) as (st1 & regs1 & E1 & I1).
      destruct (IH ab1 ab' st1 regs1 H I1) as (st2 & regs2 & E2 & I2). exists st2, regs2. split; [|exact I2].
      intros it. cbn [acts]. rewrite E1. cbn [bind fst snd]. apply E2.
  Qed.
  Lemma check_acts_idle ex cs s : all_hold v wh item cs = false -> forall l ab ab' st regs,
    check_acts t v wh ex cs ab s l = Some ab' -> Inv ex ab st regs -> Inv ex ab' st regs.
  Proof.
    intros Hf. induction l as [|a l IH]; intros ab ab' st regs H HI; cbn [check_acts] in H.
    - injection H as <-. exact HI.
    - destruct (check_act t v wh ex cs ab s a) as [ab1|] eqn:E; [|discriminate H].
      apply (IH ab1 ab' st regs H). exact (check_act_idle ex cs ab s a ab1 st regs E Hf HI).
  Qed.
  Lemma check_acts_loop ex s : (forall o w k kn code, s = SVal o w k kn code -> o = None) -> forall l ab ab',
    check_acts t v wh ex [CNe []] ab s l = Some ab' -> ab' = ab.
  Proof.
    intros Hs. induction l as [|a l IH]; intros ab ab' H; cbn [check_acts] in H.
    - injection H as <-. reflexivity.
    - destruct (check_act t v wh ex [CNe []] ab s a) as [ab1|] eqn:E; [|discriminate H].
      apply (check_act_loop ex ab s a ab1 Hs) in E. subst ab1. exact (IH ab ab' H).
  Qed.

  Lemma code_ok_spec c : code_ok c = true -> c <> 0 /\ c < 999.
  Proof. unfold code_ok. lia. Qed.

  Lemma check_src_sound ex cs ab s code ab' p st regs : check_src t v wh ex cs ab s code = Some ab' -> p_code p = code -> code_ok code = true ->
    delivers cs s -> realises item s p -> Inv ex ab st regs ->
    exists st' regs', reads arms [p] st regs st' regs' /\ Inv ex ab' st' regs'.
  Proof.
    unfold check_src. intros H Hp Hc Hd Hr HI. destruct (code_ok_spec _ Hc) as [Hc0 Hc1].
    destruct (route t ab code) as [l|] eqn:Er.
    - destruct (check_acts_sound ex cs s p Hd Hr l ab ab' st regs H HI) as (st' & regs' & E & I').
      exists st', regs'. split; [|exact I']. apply reads_step; [congruence|]. intros it. unfold step, arms.
      rewrite Hp. destruct HI as [-> _]. unfold route in Er. rewrite Er. apply E.
    - injection H as <-. exists st, regs. split; [|exact HI]. apply reads_step; [congruence|]. intros it. unfold step, arms.
      rewrite Hp. destruct HI as [-> _]. unfold route in Er. rewrite Er. reflexivity.
  Qed.
  Lemma check_src_idle ex cs ab s code ab' st regs : check_src t v wh ex cs ab s code = Some ab' ->
    all_hold v wh item cs = false -> Inv ex ab st regs -> Inv ex ab' st regs.
  Proof.
    unfold check_src. intros H Hf HI. destruct (route t ab code) as [l|].
    - exact (check_acts_idle ex cs s Hf l ab ab' st regs H HI).
    - injection H as <-. exact HI.
  Qed.
  Lemma check_loop_sound ex ab s code p st regs : (forall o w k kn code, s = SVal o w k kn code -> o = None) ->
    check_loop t v wh ex ab s code = true -> p_code p = code -> code_ok code = true ->
    realises item s p -> Inv ex ab st regs ->
    exists st', (forall it, step arms p st regs it = Ok (st', regs, it)) /\ Inv ex ab st' regs.
  Proof.
    unfold check_loop. intros Hs H Hp Hc Hr HI.
    assert (Er : find_arm arms (p_code p) regs = route t ab code) by (destruct HI as [-> _]; rewrite Hp; reflexivity).
    destruct (route t ab code) as [l|].
    - destruct (check_acts t v wh ex [CNe []] ab s l) as [ab'|] eqn:E; [|discriminate H].
      pose proof (check_acts_loop ex s Hs l ab ab' E) as ->.
      assert (Hd : delivers [CNe []] s).
      { split; [discriminate|]. destruct s as [[u|] w k kn c|q|ty]; [|exact Logic.I|exact Logic.I|exact Logic.I]. specialize (Hs _ _ _ _ _ eq_refl). discriminate Hs. }
      destruct (check_acts_sound ex [CNe []] s p Hd Hr l ab ab st regs E HI) as (st' & regs' & E' & I').
      assert (regs' = regs) as -> by (destruct HI as [-> _], I' as [-> _]; reflexivity).
      exists st'. split; [|exact I']. intros it. unfold step. rewrite Er. apply E'.
    - exists st. split; [|exact HI]. intros it. unfold step. rewrite Er. reflexivity.
  Qed.
End Sound.

(** Soundness of the checker: whole commands, finishing steps, and the final statement. *)
From Verif Require Import Base TextModel TextProofs F64Model F64Proofs CodePairModel CodePairSpec VersionModel StreamModel
  ExtDataModel ExtDataSpec ExtDataProofs BitsModel BitsProofs SpecModel SpecSpec SpecCheck SpecProofs.
Open Scope Z_scope.
Set Default Goal Selector "!".
Ltac Zify.zify_post_hook ::= Z.div_mod_to_equations.

Lemma loop_sound {A} arms (f : A -> res (list pair)) (P : list A -> store -> Prop) regs els :
  (forall pre el st, In el els -> P pre st ->
     exists ps st', f el = Ok ps /\ okhead ps /\ reads arms ps st regs st' regs /\ P (pre ++ [el]) st') ->
  forall st, P [] st ->
  exists pss st', map_res f els = Ok pss /\ okhead (concat pss) /\ reads arms (concat pss) st regs st' regs /\ P els st'.
Proof.
  intros H.
  assert (G : forall todo pre st, (forall x, In x todo -> In x els) -> P pre st ->
    exists pss st', map_res f todo = Ok pss /\ okhead (concat pss) /\ reads arms (concat pss) st regs st' regs /\ P (pre ++ todo) st').
  { induction todo as [|el todo IH]; intros pre st Hin HP.
    - exists [], st. rewrite app_nil_r. repeat split; [apply reads_nil|exact HP].
    - destruct (H pre el st (Hin el (or_introl eq_refl)) HP) as (ps & st1 & E1 & O1 & R1 & P1).
      destruct (IH (pre ++ [el]) st1 (fun x Hx => Hin x (or_intror Hx)) P1) as (pss & st2 & E2 & O2 & R2 & P2).
      exists (ps :: pss), st2. cbn [map_res concat]. rewrite E1. cbn [bind]. rewrite E2. cbn [bind].
      rewrite <- app_assoc in P2. repeat split; [apply okhead_app; assumption| |exact P2].
      eapply reads_app; eassumption. }
  intros st HP. apply (G els [] st (fun x Hx => Hx) HP).
Qed.
Lemma map_res_single {A} (f : A -> res pair) l pss :
  map_res (fun x => let? p := f x in Ok [p]) l = Ok pss -> map_res f l = Ok (concat pss).
Proof.
  revert pss. induction l as [|x l IH]; intros pss H; cbn [map_res] in *.
  - injection H as <-. reflexivity.
  - destruct (f x) as [p|]; cbn [bind] in *; [|discriminate H].
    destruct (map_res (fun x => let? p := f x in Ok [p]) l) as [r|]; cbn [bind] in *; [|discriminate H].
    injection H as <-. rewrite (IH r eq_refl). reflexivity.
Qed.

Lemma rec_nth ks : forall l j, (fix all ks l := match ks, l with
                       | [], [] => True
                       | k :: ks', x :: l' => has_kind k x /\ all ks' l'
                       | _, _ => False
                       end) ks l -> has_kind (nth j ks KAny) (nth j l (FInt 0)).
Proof.
  induction ks as [|k ks IH]; intros [|x l] j H; try contradiction.
  - destruct j; exact Logic.I.
  - destruct H as [H1 H2]. destruct j; [exact H1|exact (IH l j H2)].
Qed.
Lemma rec_length ks : forall l, (fix all ks l := match ks, l with
                       | [], [] => True
                       | k :: ks', x :: l' => has_kind k x /\ all ks' l'
                       | _, _ => False
                       end) ks l -> length l = length ks.
Proof.
  induction ks as [|k ks IH]; intros [|x l] H; try contradiction; [reflexivity|]. destruct H as [_ H]. cbn. rewrite (IH l H). reflexivity.
Qed.

Lemma assoc_slot_In {A} u (D : list (string * A)) j : assoc_slot u D = Some j -> In (u, j) D.
Proof.
  induction D as [|[y k] D IH]; intros E; [discriminate E|]. cbn [assoc_slot] in E.
  destruct (String.eqb_spec u y) as [Ey|Hne]; [injection E as <-; subst; left; reflexivity|right; exact (IH E)].
Qed.
Lemma assoc_slot_None {A} u (D : list (string * A)) : assoc_slot u D = None -> ~ In u (map fst D).
Proof.
  induction D as [|[y k] D IH]; intros E Hin; [exact Hin|]. cbn [assoc_slot] in E.
  destruct (String.eqb_spec u y) as [Ey|Hne]; [discriminate E|]. destruct Hin as [E'|Hin]; [cbn [fst] in E'; congruence|exact (IH E Hin)].
Qed.

Section Commands.
  Variable t : itype.
  Variable v : version.
  Variable wh : bool.
  Variable item : store.
  Hypothesis Hty : well_typed t item.
  Variable ex : list string.
  Let sp := it_spec t.
  Let arms := sp_arms (it_spec t).
  Notation Inv := (Inv t v wh item ex).
  Notation expect := (expect t v wh item).

  Lemma code_ok_head c w x p : code_ok c = true -> write_one c w x = Ok p -> okhead [p].
  Proof.
    unfold write_one. intros H E. destruct (apply_w w x); cbn [bind] in E; [|discriminate E]. injection E as <-.
    cbn. right. unfold code_ok in H. lia.
  Qed.
  Lemma elem_known s code k l : kind_of t s = KList k -> item s = FList l -> known t s code = true ->
    forall x z, In x l -> x = FInt z -> int_fits code z.
  Proof.
    intros Hk Hi Hkn x z Hin ->. pose proof (known_sound t item Hty s code Hkn) as H. rewrite Hk, Hi in H.
    cbn [fits] in H. rewrite Forall_forall in H. exact (H (FInt z) Hin).
  Qed.
  Lemma push_list l x : push (FList l) x = FList (l ++ [x]).
  Proof. reflexivity. Qed.
  Lemma route_find ab st regs code : Inv ab st regs -> find_arm arms code regs = route t ab code.
  Proof. intros [-> _]. reflexivity. Qed.

  (** A loop whose pairs only reach slots about which nothing is claimed. *)
  Lemma each_idle ab code s w k kn l st regs : kind_of t s = KList k -> item s = FList l ->
    wshape w k = true -> code_ok code = true -> kn = known t s code ->
    check_loop t v wh ex ab (SVal None w k kn code) code = true -> Inv ab st regs ->
    exists ps st', map_res (write_one code w) l = Ok ps /\ okhead ps /\ reads arms ps st regs st' regs /\ Inv ab st' regs.
  Proof.
    intros Hk Hi Hw Hc -> Hl HI.
    destruct (loop_sound arms (fun x => let? p := write_one code w x in Ok [p]) (fun _ st => Inv ab st regs) regs l) with (st := st)
      as (pss & st' & E & O & R & P).
    - intros pre el st1 Hin HI1. pose proof (kind_sound t item Hty s) as Hks. rewrite Hk, Hi in Hks. cbn [has_kind] in Hks.
      destruct Hks as [l' [E Hall]]. injection E as <-. rewrite Forall_forall in Hall.
      destruct (shape_sound w k el Hw (Hall el Hin)) as [val Ev].
      destruct (check_loop_sound t v wh item ex ab (SVal None w k (known t s code) code) code (mk_pair code val) st1 regs) as (st2 & E2 & I2);
        [intros o w0 k0 kn code0 E; injection E as <- _ _ _ _; reflexivity|exact Hl|reflexivity|exact Hc| |exact HI1|].
      + cbn [realises p_value p_code]. exists el. split; [apply Hall, Hin|]. split; [exact Ev|]. split; [reflexivity|]. split; [|exact Logic.I].
        intros Hkn _ z Hz. exact (elem_known s code k l Hk Hi Hkn el z Hin Hz).
      + exists [mk_pair code val], st2. unfold write_one. rewrite Ev. cbn [bind]. split; [reflexivity|].
        destruct (code_ok_spec _ Hc) as [C0 C1].
        split; [cbn; right; lia|]. split; [apply reads_step; [exact C0|exact E2]|exact I2].
    - exact HI.
    - exists (concat pss), st'. split; [apply map_res_single, E|]. repeat split; try assumption; apply P.
  Qed.

  Lemma Inv_fill ab st st' s cs w regs : all_hold v wh item cs = true -> (forall u, u <> s -> st' u = st u) ->
    meets item v s w (st' s) -> Inv ab st regs -> Inv (add s cs w ab) st' regs.
  Proof.
    intros Hc Hst Hs [Hr HI]. split; [exact Hr|]. intros u Hu. rewrite expect_add, Hc, andb_true_r.
    destruct (String.eqb_spec s u) as [->|Hne]; [exact Hs|]. rewrite Hst by congruence. apply HI, Hu.
  Qed.

  Definition split_fresh (s : string) (ab : abs) (st : store) : Prop := st s = FList [].

  Lemma default_nil_start ab st regs s : fresh t s ab = true -> Inv ab st regs -> memb s ex = false -> st s = FList [].
  Proof. intros Hf HI Hx. exact (fresh_spec t v wh item ex ab st regs s Hf HI Hx). Qed.

  (** A loop that fills its own list. When the slot is exempt nothing is known about the list, nor needed. *)
  Lemma each_fill ab code s w r k l st regs : kind_of t s = KList k -> item s = FList l ->
    wshape w k = true -> code_ok code = true ->
    conv_ok (known t s code) code r w k = true -> fresh t s ab = true ->
    route t ab code = Some [APush s r] -> Inv ab st regs ->
    exists ps st', map_res (write_one code w) l = Ok ps /\ okhead ps /\ reads arms ps st regs st' regs /\
      (forall u, u <> s -> st' u = st u) /\ (memb s ex = false -> st' s = item s).
  Proof.
    intros Hk Hi Hw Hc Hcv Hf Hr HI. pose proof (route_find ab st regs code HI) as Hrt. rewrite Hr in Hrt.
    destruct (loop_sound arms (fun x => let? p := write_one code w x in Ok [p])
      (fun pre st' => (forall u, u <> s -> st' u = st u) /\ (memb s ex = false -> st' s = FList pre)) regs l) with (st := st)
      as (pss & st' & E & O & R & P).
    - intros pre el st1 Hin [Hu Hs]. pose proof (kind_sound t item Hty s) as Hks. rewrite Hk, Hi in Hks. cbn [has_kind] in Hks.
      destruct Hks as [l' [E Hall]]. injection E as <-. rewrite Forall_forall in Hall.
      destruct (conv_sound _ _ _ _ _ el Hcv (Hall el Hin)) as (val & Ev & Er).
      { intros Hkn _ z Hz. exact (elem_known s code k l Hk Hi Hkn el z Hin Hz). }
      destruct (code_ok_spec _ Hc) as [C0 C1].
      exists [mk_pair code val], (upd st1 s (push (st1 s) el)). unfold write_one. rewrite Ev. cbn [bind]. split; [reflexivity|].
      split; [cbn; right; lia|]. split.
      + apply reads_step; [exact C0|]. intros it. unfold step. cbn [p_code]. rewrite Hrt. cbn [acts act]. rewrite Er. reflexivity.
      + split.
        * intros u Hne. rewrite upd_ne by exact Hne. apply Hu, Hne.
        * intros Hx. rewrite upd_eq, (Hs Hx). reflexivity.
    - split; [reflexivity|]. intros Hx. exact (default_nil_start ab st regs s Hf HI Hx).
    - exists (concat pss), st'. split; [apply map_res_single, E|]. rewrite Hi. repeat split; try assumption; apply P.
  Qed.

  (** Extension groups. *)
  Lemma exts_fill ab s l st regs : kind_of t s = KList KExt -> item s = FList l -> fresh t s ab = true ->
    route t ab 102 = Some [AExt s] -> Inv ab st regs ->
    let ps := flat_map (fun x => match x with FExt g => write_ext_group g | _ => [] end) l in
    exists st', okhead ps /\ reads arms ps st regs st' regs /\ (forall u, u <> s -> st' u = st u) /\ (memb s ex = false -> st' s = item s).
  Proof.
    intros Hk Hi Hf Hr HI. cbv zeta. pose proof (route_find ab st regs 102 HI) as Hrt. rewrite Hr in Hrt.
    destruct (loop_sound arms (fun x => Ok (match x with FExt g => write_ext_group g | _ => [] end))
      (fun pre st' => (forall u, u <> s -> st' u = st u) /\ (memb s ex = false -> st' s = FList pre)) regs l) with (st := st)
      as (pss & st' & E & O & R & P).
    - intros pre el st1 Hin [Hu Hs]. pose proof (kind_sound t item Hty s) as Hks. rewrite Hk, Hi in Hks. cbn [has_kind] in Hks.
      destruct Hks as [l' [E Hall]]. injection E as <-. rewrite Forall_forall in Hall. destruct (Hall el Hin) as (g & -> & Hne & Hst).
      eexists. exists (upd st1 s (push (st1 s) (FExt g))). split; [reflexivity|].
      assert (W : write_ext_group g = group_open (eg_name g) :: flat_map write_ext_item (eg_items g) ++ [group_close]).
      { destruct g as [n [|x li]]; [contradiction|reflexivity]. }
      rewrite W. split; [cbn; right; lia|]. split.
      + intros eof rest fuel x _ H. cbn [length map app]. rewrite Nat.add_succ_l. cbn [run].
        change (p_code (group_open (eg_name g)) =? 0) with false. cbn iota.
        unfold step. change (p_code (group_open (eg_name g))) with 102. rewrite Hrt. cbn [acts act].
        unfold assert_string. cbn [group_open p_value bind].
        rewrite (proj2 (read_group_spec _ _ g rest)).
        2:{ exists (flat_map write_ext_item (eg_items g)). split; [reflexivity|]. split; [apply write_items_renders, Hst|].
            rewrite map_app, <- app_assoc. reflexivity. }
        cbn [bind fst snd]. apply run_more. exact H.
      + split.
        * intros u Hne'. rewrite upd_ne by exact Hne'. apply Hu, Hne'.
        * intros Hx. rewrite upd_eq, (Hs Hx). reflexivity.
    - split; [reflexivity|]. intros Hx. exact (default_nil_start ab st regs s Hf HI Hx).
    - assert (Ec : flat_map (fun x => match x with FExt g => write_ext_group g | _ => [] end) l = concat pss).
      { clear -E. revert pss E. induction l as [|x l IH]; intros pss E; cbn [map_res bind] in E.
        - injection E as <-. reflexivity.
        - destruct (map_res _ l) as [r|]; cbn [bind] in E; [|discriminate E]. injection E as <-. cbn [flat_map concat].
          rewrite (IH r eq_refl). reflexivity. }
      rewrite Ec. exists st'. rewrite Hi. repeat split; try assumption; apply P.
  Qed.

  (** Extended data. *)
  Lemma xdatas_fill ab s l st regs : kind_of t s = KList KXd -> item s = FList l -> fresh t s ab = true ->
    route t ab 1001 = Some [AXdata s] -> version_leb R2000 v = true -> Inv ab st regs ->
    let ps := flat_map (fun x => match x with FXd d => write_xdata v d | _ => [] end) l in
    exists st', okhead ps /\ reads arms ps st regs st' regs /\ (forall u, u <> s -> st' u = st u) /\ (memb s ex = false -> st' s = item s).
  Proof.
    intros Hk Hi Hf Hr Hv HI. cbv zeta. pose proof (route_find ab st regs 1001 HI) as Hrt. rewrite Hr in Hrt.
    destruct (loop_sound arms (fun x => Ok (match x with FXd d => write_xdata v d | _ => [] end))
      (fun pre st' => (forall u, u <> s -> st' u = st u) /\ (memb s ex = false -> st' s = FList pre)) regs l) with (st := st)
      as (pss & st' & E & O & R & P).
    - intros pre el st1 Hin [Hu Hs]. pose proof (kind_sound t item Hty s) as Hks. rewrite Hk, Hi in Hks. cbn [has_kind] in Hks.
      destruct Hks as [l' [E Hall]]. injection E as <-. rewrite Forall_forall in Hall. destruct (Hall el Hin) as (d & -> & Hwf).
      exists (write_xdata v d), (upd st1 s (push (st1 s) (FXd d))). split; [reflexivity|]. split; [|split; [|split]].
      + unfold write_xdata. rewrite Hv. left. reflexivity.
      + intros eof rest fuel x Ho H. destruct (xdata_roundtrip v d rest Hv Hwf Ho) as (body & Ew & Er). rewrite Ew.
        cbn [length map app]. rewrite Nat.add_succ_l. cbn [run p_code]. change (1001 =? 0) with false. cbn iota.
        unfold step. cbn [p_code]. rewrite Hrt. cbn [acts act].
        unfold assert_string. cbn [p_value bind]. rewrite Er. cbn [bind fst snd]. apply run_more. exact H.
      + intros u Hne'. rewrite upd_ne by exact Hne'. apply Hu, Hne'.
      + intros Hx. rewrite upd_eq, (Hs Hx). reflexivity.
    - split; [reflexivity|]. intros Hx. exact (default_nil_start ab st regs s Hf HI Hx).
    - assert (Ec : flat_map (fun x => match x with FXd d => write_xdata v d | _ => [] end) l = concat pss).
      { clear -E. revert pss E. induction l as [|x l IH]; intros pss E; cbn [map_res bind] in E.
        - injection E as <-. reflexivity.
        - destruct (map_res _ l) as [r|]; cbn [bind] in E; [|discriminate E]. injection E as <-. cbn [flat_map concat].
          rewrite (IH r eq_refl). reflexivity. }
      rewrite Ec. exists st'. rewrite Hi. repeat split; try assumption; apply P.
  Qed.

  (** Records rebuilt one component at a time. *)
  Definition rebuild (el : list fval) (parts : list (list rcond * nat)) (acc : list fval) : list fval :=
    fold_left (fun acc '(cs, j) => if forallb (rholds v el) cs then set_nth j (nth j el (FInt 0)) acc else acc) parts acc.

  Lemma set_last_app st A acc j x : st = FList (A ++ [FList acc]) -> set_last st j x = Ok (FList (A ++ [FList (set_nth j x acc)])).
  Proof. intros ->. unfold set_last. cbn [as_list]. rewrite rev_app_distr. cbn [rev app as_list]. rewrite rev_involutive. reflexivity. Qed.

  Lemma parts_fill ab s ks el regs : regs = ab_regs ab ->
    (forall j, has_kind (nth j ks KAny) (nth j el (FInt 0))) ->
    forall body ps, check_rec t s ks body ab = Some ps -> forall st A acc, st s = FList (A ++ [FList acc]) ->
    exists prs st', write_parts v body el = Ok prs /\ okhead prs /\ reads arms prs st regs st' regs /\
      (forall u, u <> s -> st' u = st u) /\ st' s = FList (A ++ [FList (rebuild el ps acc)]).
  Proof.
    intros HI Hel. induction body as [|b body IH]; intros ps H st A acc Hst; cbn [check_rec] in H.
    - injection H as <-. exists [], st. repeat split; [apply reads_nil|exact Hst].
    - destruct (negb (code_ok (pt_code b)) || negb (wshape (pt_conv b) (nth (pt_comp b) ks KAny))) eqn:B; [discriminate H|].
      apply orb_false_iff in B. destruct B as [B1 B2].
      assert (Hc : code_ok (pt_code b) = true) by (destruct (code_ok (pt_code b)); [reflexivity|discriminate B1]). clear B1 B2.
      destruct (route t ab (pt_code b)) as [[|[| | |u j r0| | | | | | |] [|]]|] eqn:Er; try discriminate H.
      destruct (check_rec t s ks body ab) as [ps'|] eqn:Ec; [|discriminate H].
      destruct (String.eqb u s && Nat.eqb j (pt_comp b) && conv_ok false (pt_code b) r0 (pt_conv b) (nth (pt_comp b) ks KAny)) eqn:B;
        [|discriminate H]. injection H as <-.
      apply andb_true_iff in B. destruct B as [B B3]. apply andb_true_iff in B. destruct B as [B1 B2].
      apply String.eqb_eq in B1. apply Nat.eqb_eq in B2. subst u j.
      cbn [write_parts]. destruct (forallb (rholds v el) (pt_conds b)) eqn:Hh.
      + destruct (conv_sound _ _ _ _ _ (nth (pt_comp b) el (FInt 0)) B3 (Hel _)) as (val & Ev & Erd); [discriminate|].
        set (st1 := upd st s (FList (A ++ [FList (set_nth (pt_comp b) (nth (pt_comp b) el (FInt 0)) acc)]))).
        destruct (IH ps' eq_refl st1 A (set_nth (pt_comp b) (nth (pt_comp b) el (FInt 0)) acc)) as (prs & st' & E & O & R & U & F).
        { unfold st1. apply upd_eq. }
        exists (mk_pair (pt_code b) val :: prs), st'. rewrite E. cbn [bind]. unfold write_one. rewrite Ev. cbn [bind].
        destruct (code_ok_spec _ Hc) as [C0 C1]. split; [reflexivity|]. split; [cbn; right; lia|]. split; [|split].
        * change (mk_pair (pt_code b) val :: prs) with ([mk_pair (pt_code b) val] ++ prs). eapply reads_app; [exact O| |exact R].
          apply reads_step; [exact C0|]. intros it. unfold step. cbn [p_code].
          assert (Ef : find_arm arms (pt_code b) regs = route t ab (pt_code b)) by (unfold route, arms; rewrite HI; reflexivity).
          rewrite Ef, Er. cbn [acts act]. rewrite Erd. cbn [bind]. rewrite (set_last_app _ A acc _ _ Hst). cbn [bind]. reflexivity.
        * intros u Hu. rewrite U by exact Hu. unfold st1. apply upd_ne, Hu.
        * rewrite F. unfold rebuild. cbn [fold_left]. rewrite Hh. reflexivity.
      + destruct (IH ps' eq_refl st A acc Hst) as (prs & st' & E & O & R & U & F).
        exists prs, st'. rewrite E. cbn [bind]. repeat split; try assumption.
        rewrite F. unfold rebuild. cbn [fold_left]. rewrite Hh. reflexivity.
  Qed.

  Lemma rec_fill ab s ks b rest d r ps l st regs : kind_of t s = KList (KRec ks) -> item s = FList l ->
    code_ok (pt_code b) = true -> fresh t s ab = true -> conv_ok false (pt_code b) r (pt_conv b) (nth (pt_comp b) ks KAny) = true ->
    pt_conds b = [] -> route t ab (pt_code b) = Some [ANewRec s d (pt_comp b) r] -> check_rec t s ks rest ab = Some ps -> Inv ab st regs ->
    exists pss st', map_res (fun el => write_parts v (b :: rest) (as_list el)) l = Ok pss /\ okhead (concat pss) /\
      reads arms (concat pss) st regs st' regs /\ (forall u, u <> s -> st' u = st u) /\
      (memb s ex = false -> st' s = eval_view item v s (VRec d (([], pt_comp b) :: ps))).
  Proof.
    intros Hk Hi Hc Hf Hcv Hb Hr Hps HI. pose proof (route_find ab st regs (pt_code b) HI) as Hrt. rewrite Hr in Hrt.
    set (vw := fun el => FList (rebuild (as_list el) (([], pt_comp b) :: ps) d)).
    destruct (loop_sound arms (fun el => write_parts v (b :: rest) (as_list el))
      (fun pre st' => (forall u, u <> s -> st' u = st u) /\ (memb s ex = false -> st' s = FList (map vw pre))) regs l) with (st := st)
      as (pss & st' & E & O & R & P).
    - intros pre el st1 Hin [Hu Hs]. pose proof (kind_sound t item Hty s) as Hks. rewrite Hk, Hi in Hks.
      destruct Hks as [l' [E Hall]]. injection E as <-. rewrite Forall_forall in Hall. destruct (Hall el Hin) as (cl & -> & Hrec).
      assert (Hel : forall j, has_kind (nth j ks KAny) (nth j cl (FInt 0))) by (intros j; apply rec_nth, Hrec).
      destruct (conv_sound _ _ _ _ _ (nth (pt_comp b) cl (FInt 0)) Hcv (Hel _)) as (val & Ev & Erd); [discriminate|].
      set (acc := set_nth (pt_comp b) (nth (pt_comp b) cl (FInt 0)) d).
      set (st2 := upd st1 s (push (st1 s) (FList acc))).
      destruct (parts_fill ab s ks cl regs (proj1 HI) Hel rest ps Hps st2 (as_list (st1 s)) acc) as (prs & st3 & E3 & O3 & R3 & U3 & F3).
      { unfold st2. rewrite upd_eq. reflexivity. }
      destruct (code_ok_spec _ Hc) as [C0 C1].
      exists (mk_pair (pt_code b) val :: prs), st3. cbn [write_parts as_list]. rewrite E3, Hb. cbn [bind forallb]. unfold write_one. rewrite Ev. cbn [bind].
      split; [reflexivity|]. split; [cbn; right; lia|]. split; [|split].
      + change (mk_pair (pt_code b) val :: prs) with ([mk_pair (pt_code b) val] ++ prs). eapply reads_app; [exact O3| |exact R3].
        apply reads_step; [exact C0|]. intros it. unfold step. cbn [p_code]. rewrite Hrt. cbn [acts act]. rewrite Erd. reflexivity.
      + intros u Hne. rewrite U3 by exact Hne. unfold st2. rewrite upd_ne by exact Hne. apply Hu, Hne.
      + intros Hx. rewrite F3, (Hs Hx). cbn [as_list]. rewrite map_app. cbn [map]. reflexivity.
    - split; [reflexivity|]. intros Hx. exact (default_nil_start ab st regs s Hf HI Hx).
    - exists pss, st'. repeat split; try assumption; try apply P. intros Hx. rewrite (proj2 P Hx). cbn [eval_view]. rewrite Hi. reflexivity.
  Qed.

  (** Inside a loop only exempt slots change. *)
  Lemma act_frame ab s a ab' p st regs : (forall o w k kn code, s = SVal o w k kn code -> o = None) -> (forall q, s <> SConst q) ->
    check_act t v wh ex [CNe []] ab s a = Some ab' -> realises item s p ->
    exists st', (forall it, act a p st regs it = Ok (st', regs, it)) /\ forall u, memb u ex = false -> st' u = st u.
  Proof.
    intros Hs Hq H Hr.
    assert (Skip : forall u r, spoil ex [CNe []] ab s u r = Some ab' ->
      exists y, apply_r r p = Ok y /\ memb u ex = true).
    { intros u r E. destruct (spoil_loop ex ab s u r ab' E) as (_ & B1 & B2). destruct (src_safe_sound item s r p B2 Hr) as [y Hy]. exists y. split; assumption. }
    assert (Fr : forall u x, memb u ex = true -> forall u', memb u' ex = false -> upd st u x u' = st u').
    { intros u x Hu u' Hu'. apply upd_ne. intros ->. congruence. }
    destruct a as [u r|u r|u d j r|u j r|us m|u|u|n z|n|n tbl dm|]; cbn [check_act] in H; try discriminate H.
    - assert (E : spoil ex [CNe []] ab s u r = Some ab').
      { destruct s as [[u'|] w k kn code|q|ty]; [specialize (Hs _ _ _ _ _ eq_refl); discriminate Hs|exact H|exfalso; exact (Hq q eq_refl)|exact H]. }
      destruct (Skip u r E) as (y & Hy & Hm). exists (upd st u y). split; [intros it; cbn [act]; rewrite Hy; reflexivity|apply Fr, Hm].
    - destruct (Skip u r H) as (y & Hy & Hm). eexists. split; [intros it; cbn [act]; rewrite Hy; reflexivity|apply Fr, Hm].
    - destruct (Skip u r H) as (y & Hy & Hm). eexists. split; [intros it; cbn [act]; rewrite Hy; reflexivity|apply Fr, Hm].
    - destruct m; [discriminate H|]. destruct (forallb (fun u => memb u ex) us && src_safe s RI16) eqn:B; [|discriminate H].
      apply andb_true_iff in B. destruct B as [B1 B2]. destruct (src_safe_sound item s RI16 p B2 Hr) as [y Hy].
      cbn [apply_r] in Hy. destruct (assert_i16 p) as [z|] eqn:Ez; [|discriminate Hy].
      eexists. split; [intros it; cbn [act apply_mr]; rewrite Ez; cbn [bind]; reflexivity|].
      intros u Hu. clear -B1 Hu. revert st. generalize ([FInt (dimension_type_i16 (dw_type (dim_of_i16 z))); FBool (dw_block_only (dim_of_i16 z));
        FBool (dw_ordinate_x (dim_of_i16 z)); FBool (dw_user_location (dim_of_i16 z))]) as vs.
      induction us as [|x us IH]; intros vs st; [reflexivity|]. cbn [forallb] in B1. apply andb_true_iff in B1. destruct B1 as [B1 B2].
      destruct vs as [|y vs]; [reflexivity|]. cbn [upd_all]. rewrite IH by exact B2. apply upd_ne. intros ->. congruence.
    - destruct s as [[u'|] w k kn code|q|ty]; try discriminate H. exfalso. exact (Hq q eq_refl).
  Qed.
  Lemma acts_frame s p regs : (forall o w k kn code, s = SVal o w k kn code -> o = None) -> (forall q, s <> SConst q) ->
    realises item s p -> forall l ab ab' st, check_acts t v wh ex [CNe []] ab s l = Some ab' ->
    exists st', (forall it, acts l p st regs it = Ok (st', regs, it)) /\ forall u, memb u ex = false -> st' u = st u.
  Proof.
    intros Hs Hq Hr. induction l as [|a l IH]; intros ab ab' st H; cbn [check_acts] in H.
    - exists st. split; reflexivity.
    - destruct (check_act t v wh ex [CNe []] ab s a) as [ab1|] eqn:E; [|discriminate H].
      destruct (act_frame ab s a ab1 p st regs Hs Hq E Hr) as (st1 & E1 & F1).
      destruct (IH ab1 ab' st1 H) as (st2 & E2 & F2). exists st2. split.
      + intros it. cbn [acts]. rewrite E1. cbn [bind fst snd]. apply E2.
      + intros u Hu. rewrite (F2 u Hu). apply F1, Hu.
  Qed.
  Lemma loop_frame ab s code p st regs : (forall o w k kn code, s = SVal o w k kn code -> o = None) -> (forall q, s <> SConst q) ->
    check_loop t v wh ex ab s code = true -> p_code p = code -> code_ok code = true -> realises item s p -> regs = ab_regs ab ->
    exists st', reads arms [p] st regs st' regs /\ forall u, memb u ex = false -> st' u = st u.
  Proof.
    unfold check_loop. intros Hs Hq H Hp Hc Hr ->. destruct (code_ok_spec _ Hc) as [C0 C1].
    assert (Er : find_arm arms (p_code p) (ab_regs ab) = route t ab code) by (rewrite Hp; reflexivity).
    destruct (route t ab code) as [l|].
    - destruct (check_acts t v wh ex [CNe []] ab s l) as [ab'|] eqn:E; [|discriminate H].
      destruct (acts_frame s p (ab_regs ab) Hs Hq Hr l ab ab' st E) as (st' & E' & F). exists st'. split; [|exact F].
      apply reads_step; [congruence|]. intros it. unfold step. rewrite Er. apply E'.
    - exists st. split; [|reflexivity]. apply reads_step; [congruence|]. intros it. unfold step. rewrite Er. reflexivity.
  Qed.

  Definition adds (cs : list cond) (s : string) (D : list (string * nat)) (ab : abs) : abs :=
    fold_left (fun ab '(u, j) => add u cs (VComp s j) ab) D ab.

  Lemma has_entry_add u ab x cs w : has_entry u (add x cs w ab) = String.eqb x u || has_entry u ab.
  Proof. reflexivity. Qed.
  Lemma adds_regs cs s D : forall ab, ab_regs (adds cs s D ab) = ab_regs ab.
  Proof. induction D as [|[u j] D IH]; intros ab; [reflexivity|]. cbn [adds fold_left]. exact (IH (add u cs (VComp s j) ab)). Qed.
  Lemma adds_idle cs s D : all_hold v wh item cs = false -> forall ab st regs, Inv ab st regs -> Inv (adds cs s D ab) st regs.
  Proof.
    intros Hf. induction D as [|[u j] D IH]; intros ab st regs HI; [exact HI|]. cbn [adds fold_left].
    apply (IH (add u cs (VComp s j) ab)). apply Inv_add_idle; assumption.
  Qed.
  Lemma adds_expect cs s D : all_hold v wh item cs = true -> NoDup (map fst D) -> forall ab u,
    forall y, expect (adds cs s D ab) u y = match assoc_slot u D with Some j => y = eval_view item v u (VComp s j) | None => expect ab u y end.
  Proof.
    intros Hc. induction D as [|[x j] D IH]; intros Hd ab u y; [reflexivity|]. cbn [adds fold_left assoc_slot].
    inversion Hd as [|? ? Hn Hd']; subst. change (fold_left _ D ?a) with (adds cs s D a). rewrite (IH Hd').
    rewrite expect_add, Hc, andb_true_r. destruct (String.eqb_spec u x) as [->|Hne].
    - rewrite String.eqb_refl. destruct (assoc_slot x D) eqn:E; [|reflexivity].
      exfalso. apply Hn. clear -E. induction D as [|[y k] D IH]; [discriminate E|]. cbn [assoc_slot] in E.
      destruct (String.eqb_spec x y) as [->|]; [left; reflexivity|right; apply IH, E].
    - destruct (String.eqb_spec x u) as [->|_]; [contradiction|reflexivity].
  Qed.

  Lemma fresh_add u ab x cs w : fresh t u (add x cs w ab) = true -> fresh t u ab = true /\ u <> x.
  Proof.
    unfold fresh. rewrite has_entry_add. intros H. apply andb_true_iff in H. destruct H as [H1 H2].
    apply negb_true_iff, orb_false_iff in H1. destruct H1 as [H1 H3]. split.
    - rewrite H3, H2. reflexivity.
    - intros ->. rewrite String.eqb_refl in H1. discriminate H1.
  Qed.

  Lemma split_spec cs s ks ab0 : forall body ab ab', check_split t v wh ex cs s ks body ab0 ab = Some ab' ->
    exists D, ab' = adds cs s D ab /\ NoDup (map fst D) /\
      (forall u j, In (u, j) D -> memb u ex = false /\ fresh t u ab = true) /\
      forall el st, (forall j, has_kind (nth j ks KAny) (nth j el (FInt 0))) ->
        exists prs st', write_parts v body el = Ok prs /\ okhead prs /\ reads arms prs st (ab_regs ab0) st' (ab_regs ab0) /\
          (forall u j, In (u, j) D -> st' u = push (st u) (nth j el (FInt 0))) /\
          (forall u, memb u ex = false -> ~ In u (map fst D) -> st' u = st u).
  Proof.
    induction body as [|b body IH]; intros ab ab' H; cbn [check_split] in H.
    - injection H as <-. exists []. split; [reflexivity|]. split; [constructor|]. split; [intros u j []|].
      intros el st _. exists [], st. repeat split; [apply reads_nil|intros u j []].
    - destruct (negb (forallb static_rcond (pt_conds b))) eqn:Hst; [discriminate H|]. apply negb_false_iff in Hst.
      assert (Hrh : forall el, forallb (rholds v el) (pt_conds b) = forallb (rholds v []) (pt_conds b)).
      { intros el. clear -Hst. induction (pt_conds b) as [|c l IH]; [reflexivity|]. cbn [forallb] in *. apply andb_true_iff in Hst.
        destruct Hst as [H1 H2]. rewrite (IH H2). destruct c; [reflexivity|discriminate H1]. }
      destruct (negb (forallb (rholds v []) (pt_conds b))) eqn:Hh.
      + destruct (IH ab ab' H) as (D & Ea & Hn & Hd & Hel). exists D. split; [exact Ea|]. split; [exact Hn|]. split; [exact Hd|].
        intros el st Hkinds. destruct (Hel el st Hkinds) as (prs & st' & E & O & R & F1 & F2).
        exists prs, st'. cbn [write_parts]. rewrite E. cbn [bind]. rewrite Hrh. apply negb_true_iff in Hh. rewrite Hh. repeat split; assumption.
      + apply negb_false_iff in Hh. destruct (negb (code_ok (pt_code b))) eqn:Hc; [discriminate H|]. apply negb_false_iff in Hc.
        destruct (negb (wshape (pt_conv b) (nth (pt_comp b) ks KAny))) eqn:Hw; [discriminate H|]. apply negb_false_iff in Hw.
        destruct (code_ok_spec _ Hc) as [C0 C1].
        set (k := nth (pt_comp b) ks KAny) in *.
        assert (Idle : (if check_loop t v wh ex ab0 (SVal None (pt_conv b) k false (pt_code b)) (pt_code b)
                        then check_split t v wh ex cs s ks body ab0 ab else None) = Some ab' ->
          exists D, ab' = adds cs s D ab /\ NoDup (map fst D) /\
            (forall u j, In (u, j) D -> memb u ex = false /\ fresh t u ab = true) /\
            forall el st, (forall j, has_kind (nth j ks KAny) (nth j el (FInt 0))) ->
              exists prs st', write_parts v (b :: body) el = Ok prs /\ okhead prs /\ reads arms prs st (ab_regs ab0) st' (ab_regs ab0) /\
                (forall u j, In (u, j) D -> st' u = push (st u) (nth j el (FInt 0))) /\
                (forall u, memb u ex = false -> ~ In u (map fst D) -> st' u = st u)).
        { intros E0. destruct (check_loop _ _ _ _ _ _ _) eqn:El; [|discriminate E0].
          destruct (IH ab ab' E0) as (D & Ea & Hn & Hd & Hel). exists D. split; [exact Ea|]. split; [exact Hn|]. split; [exact Hd|].
          intros el st Hkinds. destruct (shape_sound _ _ _ Hw (Hkinds (pt_comp b))) as [val Ev].
          destruct (loop_frame ab0 (SVal None (pt_conv b) k false (pt_code b)) (pt_code b) (mk_pair (pt_code b) val) st (ab_regs ab0)) as (st1 & R1 & F1);
            [intros ? ? ? ? ? E1; injection E1 as <- _ _ _ _; reflexivity|discriminate|exact El|reflexivity|exact Hc| |reflexivity|].
          { cbn [realises p_value p_code]. exists (nth (pt_comp b) el (FInt 0)). split; [apply Hkinds|]. split; [exact Ev|]. split; [reflexivity|].
            split; [discriminate|exact Logic.I]. }
          destruct (Hel el st1 Hkinds) as (prs & st' & E & O & R & G1 & G2).
          exists (mk_pair (pt_code b) val :: prs), st'. cbn [write_parts]. rewrite E, Hrh, Hh. cbn [bind]. unfold write_one. rewrite Ev. cbn [bind].
          split; [reflexivity|]. split; [cbn; right; lia|]. split; [|split].
          - change (mk_pair (pt_code b) val :: prs) with ([mk_pair (pt_code b) val] ++ prs). eapply reads_app; [exact O|exact R1|exact R].
          - intros u j Hin. rewrite (G1 u j Hin). rewrite F1; [reflexivity|apply (Hd u j Hin)].
          - intros u Hu Hni. rewrite (G2 u Hu Hni). apply F1, Hu. }
        destruct (route t ab0 (pt_code b)) as [[|[|u r0| | | | | | | | |] [|]]|] eqn:Er; try exact (Idle H).
        destruct (negb (memb u ex) && fresh t u ab && conv_ok false (pt_code b) r0 (pt_conv b) k) eqn:B; [|exact (Idle H)]. clear Idle.
        apply andb_true_iff in B. destruct B as [B B3]. apply andb_true_iff in B. destruct B as [B1 B2]. apply negb_true_iff in B1.
        destruct (IH (add u cs (VComp s (pt_comp b)) ab) ab' H) as (D & Ea & Hn & Hd & Hel).
        assert (Hu : ~ In u (map fst D)).
        { intros Hin. apply in_map_iff in Hin. destruct Hin as [[u' j'] [Eu Hin]]. cbn [fst] in Eu. subst u'.
          destruct (Hd u j' Hin) as [_ Hfr]. apply fresh_add in Hfr. apply (proj2 Hfr eq_refl). }
        exists ((u, pt_comp b) :: D). split; [exact Ea|]. split; [cbn [map fst]; constructor; assumption|]. split.
        * intros u' j' [E|Hin]; [injection E as <- <-; split; assumption|]. destruct (Hd u' j' Hin) as [X1 X2]. split; [exact X1|].
          apply fresh_add in X2. apply X2.
        * intros el st Hkinds. destruct (conv_sound _ _ _ _ _ _ B3 (Hkinds (pt_comp b))) as (val & Ev & Erd); [discriminate|].
          set (st1 := upd st u (push (st u) (nth (pt_comp b) el (FInt 0)))).
          destruct (Hel el st1 Hkinds) as (prs & st' & E & O & R & G1 & G2).
          exists (mk_pair (pt_code b) val :: prs), st'. cbn [write_parts]. rewrite E, Hrh, Hh. cbn [bind]. unfold write_one. rewrite Ev. cbn [bind].
          split; [reflexivity|]. split; [cbn; right; lia|]. split; [|split].
          -- change (mk_pair (pt_code b) val :: prs) with ([mk_pair (pt_code b) val] ++ prs). eapply reads_app; [exact O| |exact R].
             apply reads_step; [exact C0|]. intros it. unfold step. cbn [p_code]. unfold route in Er. unfold arms. rewrite Er.
             cbn [acts act]. rewrite Erd. reflexivity.
          -- intros u' j' [E'|Hin].
             ++ injection E' as <- <-. rewrite (G2 u B1 Hu). unfold st1. apply upd_eq.
             ++ rewrite (G1 u' j' Hin). unfold st1. rewrite upd_ne; [reflexivity|]. intros ->. apply Hu. apply in_map_iff. exists (u, j'). split; [reflexivity|exact Hin].
          -- intros u' Hu' Hni. cbn [map fst In] in Hni. rewrite (G2 u' Hu'); [|tauto]. unfold st1. apply upd_ne. intros ->. apply Hni. left. reflexivity.
  Qed.

  Lemma split_fill cs s ks body ab ab' l st regs : kind_of t s = KList (KRec ks) -> item s = FList l ->
    check_split t v wh ex cs s ks body ab ab = Some ab' -> all_hold v wh item cs = true -> Inv ab st regs ->
    exists pss st', map_res (fun el => write_parts v body (as_list el)) l = Ok pss /\ okhead (concat pss) /\
      reads arms (concat pss) st regs st' regs /\ Inv ab' st' regs.
  Proof.
    intros Hk Hi H Hc HI. destruct (split_spec cs s ks ab body ab ab' H) as (D & -> & Hn & Hd & Hel).
    assert (Hregs : regs = ab_regs ab) by apply HI.
    destruct (loop_sound arms (fun el => write_parts v body (as_list el))
      (fun pre st' => (forall u j, In (u, j) D -> st' u = FList (map (fun el => nth j (as_list el) (FInt 0)) pre)) /\
                      (forall u, memb u ex = false -> ~ In u (map fst D) -> st' u = st u)) regs l) with (st := st)
      as (pss & st' & E & O & R & P).
    - intros pre el st1 Hin [P1 P2]. pose proof (kind_sound t item Hty s) as Hks. rewrite Hk, Hi in Hks.
      destruct Hks as [l' [E Hall]]. injection E as <-. rewrite Forall_forall in Hall. destruct (Hall el Hin) as (cl & -> & Hrec).
      destruct (Hel cl st1 (fun j => rec_nth ks cl j Hrec)) as (prs & st2 & E & O & R & G1 & G2).
      exists prs, st2. rewrite Hregs. repeat split; try assumption.
      + intros u j Hu. rewrite (G1 u j Hu), (P1 u j Hu), push_list, map_app. reflexivity.
      + intros u Hu Hni. rewrite (G2 u Hu Hni). apply P2; assumption.
    - split; [|reflexivity]. intros u j Hu. destruct (Hd u j Hu) as [X1 X2]. exact (default_nil_start ab st regs u X2 HI X1).
    - exists pss, st'. repeat split; try assumption.
      + rewrite adds_regs. exact Hregs.
      + intros u Hu. rewrite (adds_expect cs s D Hc Hn). destruct (assoc_slot u D) as [j|] eqn:Ea.
        * assert (Hin : In (u, j) D).
          { apply assoc_slot_In, Ea. }
          rewrite (proj1 P u j Hin). cbn [eval_view]. rewrite Hi. reflexivity.
        * rewrite (proj2 P u Hu); [apply HI, Hu|exact (assoc_slot_None u D Ea)].
  Qed.
End Commands.

(** Soundness of the checker: all commands, the finishing steps, the covered fields, and the final statement. *)
From Verif Require Import Base TextModel CodePairModel VersionModel StreamModel
  ExtDataModel ExtDataSpec BitsModel BitsProofs SpecModel SpecSpec SpecCheck SpecProofs SpecLoopProofs.
Open Scope Z_scope.
Set Default Goal Selector "!".
Ltac Zify.zify_post_hook ::= Z.div_mod_to_equations.

Lemma is_bool_eq k : is_bool k = true -> k = KBool.
Proof. destruct k; try discriminate. reflexivity. Qed.

Lemma doubles_nth k x : doubles k = true -> has_kind k x -> forall i, exists d, nth i (as_list x) (FF64 0) = FF64 d.
Proof.
  intros Hd Hk i. destruct k as [| | | | | | | | | |k|ks| | |]; try discriminate Hd; cbn [doubles] in Hd.
  - destruct k; try discriminate Hd. cbn [has_kind] in Hk. destruct Hk as (l & -> & Hall). cbn [as_list].
    destruct (nth_in_or_default i l (FF64 0)) as [Hin|E]; [|exists 0%N; exact E]. rewrite Forall_forall in Hall.
    destruct (Hall _ Hin) as (d & E & _). exists d. exact E.
  - cbn [has_kind] in Hk. destruct Hk as (l & -> & Hall). cbn [as_list]. revert l i Hall.
    induction ks as [|k ks IH]; intros l i Hall; destruct l as [|x l]; try contradiction.
    + exists 0%N. destruct i; reflexivity.
    + cbn [forallb] in Hd. apply andb_true_iff in Hd. destruct Hd as [D1 D2]. destruct k; try discriminate D1.
      destruct Hall as [(d & E & _) Hall]. destruct i as [|i]; [exists d; exact E|]. exact (IH D2 l i Hall).
Qed.

Section Commands.
  Variable t : itype.
  Variable v : version.
  Variable wh : bool.
  Variable item : store.
  Hypothesis Hty : well_typed t item.
  Variable ex : list string.
  Let arms := sp_arms (it_spec t).
  Notation Inv := (Inv t v wh item ex).
  Notation expect := (expect t v wh item).

  Lemma list_kind s k : kind_of t s = KList k -> exists l, item s = FList l /\ Forall (has_kind k) l.
  Proof. intros H. pose proof (kind_sound t item Hty s) as K. rewrite H in K. exact K. Qed.

  Lemma Inv_multi cs : all_hold v wh item cs = true -> forall ss ab st regs, Inv ab st regs ->
    Inv (fold_left (fun ab s => add s cs VSelf ab) ss ab) (upd_all st ss (map item ss)) regs.
  Proof.
    intros Hc. induction ss as [|s ss IH]; intros ab st regs HI; [exact HI|]. cbn [fold_left map upd_all]. apply IH.
    apply Inv_add; [exact Hc|intros _; reflexivity|exact HI].
  Qed.
  Lemma Inv_multi_idle cs : all_hold v wh item cs = false -> forall ss ab st regs, Inv ab st regs ->
    Inv (fold_left (fun ab s => add s cs VSelf ab) ss ab) st regs.
  Proof.
    intros Hc. induction ss as [|s ss IH]; intros ab st regs HI; [exact HI|]. cbn [fold_left]. apply IH.
    apply Inv_add_idle; assumption.
  Qed.

  (** A command that is not executed. *)
  Lemma cmd_idle ab c ab' st regs : check_cmd t v wh ex ab c = Some ab' -> all_hold v wh item (cmd_conds c) = false ->
    Inv ab st regs -> Inv ab' st regs.
  Proof.
    unfold check_cmd. intros H Hf HI. destruct (never v wh (cmd_conds c)); [injection H as <-; exact HI|].
    assert (A : forall s w, Some (add s (cmd_conds c) w ab) = Some ab' -> Inv ab' st regs).
    { intros s w E. injection E as <-. apply Inv_add_idle; assumption. }
    assert (Sk : Some ab = Some ab' -> Inv ab' st regs) by (intros E; injection E as <-; exact HI).
    assert (If : forall b : bool, (if b then Some ab else None) = Some ab' -> Inv ab' st regs).
    { intros [|] E; [exact (Sk E)|discriminate E]. }
    destruct c as [cs code s w|cs p|cs code s l|cs code s w|cs s body|cs code s ix|cs code ss m|cs s|cs s]; cbn [cmd_conds] in *.
    - destruct (_ && _); [|discriminate H]. exact (check_src_idle t v wh item ex cs ab _ _ ab' st regs H Hf HI).
    - destruct (code_ok _); [|discriminate H]. exact (check_src_idle t v wh item ex cs ab _ _ ab' st regs H Hf HI).
    - destruct (code_ok _); [|discriminate H]. exact (check_src_idle t v wh item ex cs ab _ _ ab' st regs H Hf HI).
    - destruct (code_ok code && _); [|discriminate H].
      destruct (route t ab code) as [[|[|u r| | | | | | | | |] [|]]|]; try exact (If _ H).
      destruct (String.eqb u s && _ && _); [exact (A _ _ H)|exact (If _ H)].
    - destruct (elem_kind (kind_of t s)) as [| | | | | | | | | | |ks| | |]; try discriminate H. destruct body as [|b rest]; [discriminate H|].
      assert (Sp : check_split t v wh ex cs s ks (b :: rest) ab ab = Some ab' -> Inv ab' st regs).
      { intros E. destruct (split_spec t v wh item ex cs s ks ab (b :: rest) ab ab' E) as (D & -> & _). apply adds_idle; assumption. }
      destruct (route t ab (pt_code b)) as [[|[| |u d j r| | | | | | | |] [|]]|]; try exact (Sp H).
      destruct (_ && _); [|discriminate H]. destruct (check_rec t s ks rest ab); [exact (A _ _ H)|discriminate H].
    - exact (If _ H).
    - destruct (route t ab code) as [[|[| | | |us m'| | | | | |] [|]]|]; try discriminate H.
      destruct (_ && _); [|discriminate H]. injection H as <-. apply Inv_multi_idle; assumption.
    - destruct (kind_of t s) as [| | | | | | | | | |[]| | | |]; try discriminate H.
      destruct (route t ab 102) as [[|[| | | | |u| | | | |] [|]]|]; try discriminate H.
      destruct (_ && _); [exact (A _ _ H)|discriminate H].
    - destruct (kind_of t s) as [| | | | | | | | | |[]| | | |]; try discriminate H.
      destruct (route t ab 1001) as [[|[| | | | | |u| | | |] [|]]|]; try discriminate H.
      destruct (_ && _); [|discriminate H]. destruct (version_leb R2000 v); [exact (A _ _ H)|exact (Sk H)].
  Qed.

  Lemma map_single f (s : string) : forall ss k l, map (f : string -> kind) ss = k :: l -> exists s' ss', ss = s' :: ss' /\ f s' = k /\ map f ss' = l.
  Proof. intros [|s' ss'] k l E; [discriminate E|]. injection E as E1 E2. exists s', ss'. repeat split; assumption. Qed.

  Lemma multi_layer cs code ss st regs ab : multi_ok MLayerColor MLayerColor (map (kind_of t) ss) = true ->
    code_ok code = true -> route t ab code = Some [AMulti ss MLayerColor] -> all_hold v wh item cs = true -> Inv ab st regs ->
    exists x st', apply_mw MLayerColor (map item ss) = Ok x /\ reads arms [mk_pair code x] st regs st' regs /\
      Inv (fold_left (fun ab s => add s cs VSelf ab) ss ab) st' regs.
  Proof.
    intros Hk Hc Hrt Hh HI. destruct ss as [|s1 [|s2 [|]]]; try discriminate Hk. cbn [map multi_ok] in Hk.
    apply andb_true_iff in Hk. destruct Hk as [K1 K2]. apply is_bool_eq in K2.
    destruct (kind_of t s1) as [|lo hi| | | | | | | | | | | | |] eqn:K1'; try discriminate K1. rename K1 into Hr, K1' into K1. cbn [layer_range] in Hr.
    pose proof (kind_sound t item Hty s1) as H1. rewrite K1 in H1. destruct H1 as [c [E1 R1]].
    pose proof (kind_sound t item Hty s2) as H2. rewrite K2 in H2. destruct H2 as [on E2].
    pose proof (in_range_spec _ _ _ _ c Hr R1) as R. destruct (code_ok_spec _ Hc) as [C0 C1].
    cbn [map]. rewrite E1, E2. cbn [apply_mw]. unfold writable_color_value, i16_abs.
    replace (c =? -32768) with false by lia. cbn [bind]. rewrite Z.abs_eq by lia.
    eexists. exists (upd_all st [s1; s2] (map item [s1; s2])). split; [reflexivity|]. split; [|apply Inv_multi; assumption].
    apply reads_step; [exact C0|]. intros it. unfold step. cbn [p_code]. pose proof (route_find t v wh item ex ab st regs code HI) as Hf.
    fold arms in Hf. rewrite Hf, Hrt. cbn [acts act apply_mr assert_i16 p_value bind]. unfold read_color_value, i16_abs.
    cbn [map]. rewrite E1, E2. destruct on.
    - replace (c =? -32768) with false by lia. cbn [bind]. rewrite Z.abs_eq by lia. replace (0 <=? c) with true by lia. reflexivity.
    - replace (- c =? -32768) with false by lia. cbn [bind]. rewrite Z.abs_opp, Z.abs_eq by lia. replace (0 <=? - c) with false by lia. reflexivity.
  Qed.
  Lemma multi_dim cs code ss st regs ab : multi_ok MDimWord MDimWord (map (kind_of t) ss) = true ->
    code_ok code = true -> route t ab code = Some [AMulti ss MDimWord] -> all_hold v wh item cs = true -> Inv ab st regs ->
    exists x st', apply_mw MDimWord (map item ss) = Ok x /\ reads arms [mk_pair code x] st regs st' regs /\
      Inv (fold_left (fun ab s => add s cs VSelf ab) ss ab) st' regs.
  Proof.
    intros Hk Hc Hrt Hh HI. destruct ss as [|s1 [|s2 [|s3 [|s4 [|]]]]]; try discriminate Hk. cbn [map multi_ok] in Hk.
    apply andb_true_iff in Hk. destruct Hk as [Hk K4]. apply andb_true_iff in Hk. destruct Hk as [Hk K3].
    apply andb_true_iff in Hk. destruct Hk as [K1 K2]. apply is_bool_eq in K2, K3, K4.
    destruct (kind_of t s1) as [| | |ks| | | | | | | | | | |] eqn:K1'; try discriminate K1. rename K1 into Hr, K1' into K1. cbn [dim_range] in Hr.
    pose proof (kind_sound t item Hty s1) as H1. rewrite K1 in H1. destruct H1 as [z [E1 R1]].
    pose proof (kind_sound t item Hty s2) as H2. rewrite K2 in H2. destruct H2 as [b2 E2].
    pose proof (kind_sound t item Hty s3) as H3. rewrite K3 in H3. destruct H3 as [b3 E3].
    pose proof (kind_sound t item Hty s4) as H4. rewrite K4 in H4. destruct H4 as [b4 E4].
    rewrite forallb_forall in Hr. specialize (Hr z R1). destruct (code_ok_spec _ Hc) as [C0 C1].
    assert (Ez : exists ty, dimension_type_of_i16 z = Some ty /\ dimension_type_i16 ty = z).
    { assert (z = 0 \/ z = 1 \/ z = 2 \/ z = 3 \/ z = 4 \/ z = 5 \/ z = 6) as [->|[->|[->|[->|[->|[->| ->]]]]]] by lia; eexists; split; reflexivity. }
    destruct Ez as (ty & Et & Ez).
    cbn [map]. rewrite E1, E2, E3, E4. cbn [apply_mw]. rewrite Et.
    eexists. exists (upd_all st [s1; s2; s3; s4] (map item [s1; s2; s3; s4])). split; [reflexivity|]. split; [|apply Inv_multi; assumption].
    apply reads_step; [exact C0|]. intros it. unfold step. cbn [p_code]. pose proof (route_find t v wh item ex ab st regs code HI) as Hf.
    fold arms in Hf. rewrite Hf, Hrt. cbn [acts act apply_mr assert_i16 p_value bind]. rewrite dim_roundtrip.
    cbn [dw_type dw_block_only dw_ordinate_x dw_user_location map]. rewrite E1, E2, E3, E4, Ez. reflexivity.
  Qed.

  Lemma src_pair code s w : wshape w (kind_of t s) = true ->
    exists val, apply_w w (item s) = Ok val /\
      realises item (SVal (Some s) w (kind_of t s) (known t s code) code) (mk_pair code val).
  Proof.
    intros Hw. destruct (shape_sound w (kind_of t s) (item s) Hw (kind_sound t item Hty s)) as [val Ev]. exists val. split; [exact Ev|].
    cbn [realises p_value p_code]. exists (item s). split; [apply kind_sound, Hty|]. split; [exact Ev|]. split; [reflexivity|]. split; [|reflexivity].
    intros Hkn Hku z Hz. pose proof (known_sound t item Hty s code Hkn) as F. rewrite Hz in F. destruct (kind_of t s); try exact F. congruence.
  Qed.

  Lemma cmd_sound ab c ab' st regs : check_cmd t v wh ex ab c = Some ab' -> Inv ab st regs ->
    exists ps st' regs', write_cmd v wh item c = Ok ps /\ okhead ps /\ reads arms ps st regs st' regs' /\ Inv ab' st' regs'.
  Proof.
    intros H HI. unfold write_cmd. destruct (all_hold v wh item (cmd_conds c)) eqn:Hh.
    2:{ exists [], st, regs. split; [reflexivity|]. split; [exact Logic.I|]. split; [apply reads_nil|]. exact (cmd_idle ab c ab' st regs H Hh HI). }
    unfold check_cmd in H. destruct (never v wh (cmd_conds c)) eqn:Hn; [rewrite (never_false v wh item _ Hn) in Hh; discriminate Hh|]. clear Hn.
    assert (One : forall p st' regs', code_ok (p_code p) = true -> reads arms [p] st regs st' regs' -> Inv ab' st' regs' ->
      exists ps st' regs', Ok [p] = Ok ps /\ okhead ps /\ reads arms ps st regs st' regs' /\ Inv ab' st' regs').
    { intros p st' regs' Hc R I'. exists [p], st', regs'. split; [reflexivity|]. destruct (code_ok_spec _ Hc). split; [cbn; right; lia|]. split; assumption. }
    destruct c as [cs code s w|cs p|cs code s l|cs code s w|cs s body|cs code s ix|cs code ss m|cs s|cs s]; cbn [cmd_conds write_body] in *.
    - destruct (code_ok code && wshape w (kind_of t s)) eqn:B; [|discriminate H]. apply andb_true_iff in B. destruct B as [B1 B2].
      destruct (src_pair code s w B2) as (val & Ev & Hr).
      destruct (check_src_sound t v wh item ex cs ab _ code ab' (mk_pair code val) st regs H eq_refl B1 (conj (fun _ => Hh) Hh) Hr HI) as (st' & regs' & R & I').
      unfold write_one. rewrite Ev. cbn [bind]. exact (One (mk_pair code val) st' regs' B1 R I').
    - destruct (code_ok (p_code p)) eqn:B; [|discriminate H].
      destruct (check_src_sound t v wh item ex cs ab _ (p_code p) ab' p st regs H eq_refl B (conj (fun _ => Hh) Logic.I) eq_refl HI) as (st' & regs' & R & I').
      exact (One p st' regs' B R I').
    - destruct (code_ok code) eqn:B; [|discriminate H].
      destruct (check_src_sound t v wh item ex cs ab _ code ab' (mk_pair code (apply_l l (item s))) st regs H eq_refl B (conj (fun _ => Hh) Logic.I) (ltype_sound l _) HI) as (st' & regs' & R & I').
      exact (One (mk_pair code (apply_l l (item s))) st' regs' B R I').
    - destruct (code_ok code && wshape w (elem_kind (kind_of t s))) eqn:B; [|discriminate H]. apply andb_true_iff in B. destruct B as [B1 B2].
      destruct (kind_of t s) as [| | | | | | | | | |k| | | |] eqn:Hk; cbn [elem_kind] in *; try (destruct w; discriminate B2).
      destruct (list_kind s k Hk) as (l & Hi & Hall).
      assert (Idle : (if check_loop t v wh ex ab (SVal None w k (known t s code) code) code then Some ab else None) = Some ab' ->
        exists ps st' regs', map_res (write_one code w) (as_list (item s)) = Ok ps /\ okhead ps /\ reads arms ps st regs st' regs' /\ Inv ab' st' regs').
      { intros E. destruct (check_loop _ _ _ _ _ _ _) eqn:El; [|discriminate E]. injection E as <-.
        destruct (each_idle t v wh item Hty ex ab code s w k (known t s code) l st regs Hk Hi B2 B1 eq_refl El HI) as (ps & st' & E & O & R & I').
        exists ps, st', regs. rewrite Hi. repeat split; try assumption; apply I'. }
      destruct (route t ab code) as [[|[|u r| | | | | | | | |] [|]]|] eqn:Er; try exact (Idle H).
      destruct (String.eqb u s && fresh t s ab && conv_ok (known t s code) code r w k) eqn:B; [|exact (Idle H)].
      apply andb_true_iff in B. destruct B as [B B5]. apply andb_true_iff in B. destruct B as [B3 B4]. apply String.eqb_eq in B3. subst u.
      injection H as <-.
      destruct (each_fill t v wh item Hty ex ab code s w r k l st regs Hk Hi B2 B1 B5 B4 Er HI) as (ps & st' & E & O & R & U & F).
      exists ps, st', regs. rewrite Hi. split; [exact E|]. split; [exact O|]. split; [exact R|].
      destruct HI as [Hr HI]. split; [exact Hr|]. intros u Hu. rewrite expect_add, Hh, andb_true_r.
      destruct (String.eqb_spec s u) as [<-|Hne]; [apply F, Hu|]. rewrite U by congruence. apply HI, Hu.
    - destruct (elem_kind (kind_of t s)) as [| | | | | | | | | | |ks| | |] eqn:He; try discriminate H. destruct body as [|b rest]; [discriminate H|].
      destruct (kind_of t s) as [| | | | | | | | | |k| | | |] eqn:Hk; try discriminate He. cbn [elem_kind] in He. subst k.
      destruct (list_kind s _ Hk) as (l & Hi & Hall).
      assert (Sp : check_split t v wh ex cs s ks (b :: rest) ab ab = Some ab' ->
        exists ps st' regs', (let? ls := map_res (fun el => write_parts v (b :: rest) (as_list el)) (as_list (item s)) in Ok (concat ls)) = Ok ps /\
          okhead ps /\ reads arms ps st regs st' regs' /\ Inv ab' st' regs').
      { intros E. destruct (split_fill t v wh item Hty ex cs s ks (b :: rest) ab ab' l st regs Hk Hi E Hh HI) as (pss & st' & E1 & O & R & I').
        exists (concat pss), st', regs. rewrite Hi. cbn [as_list]. rewrite E1. cbn [bind]. repeat split; try assumption; apply I'. }
      destruct (route t ab (pt_code b)) as [[|[| |u d j r| | | | | | | |] [|]]|] eqn:Er; try exact (Sp H). clear Sp.
      match type of H with (if ?c then _ else _) = _ => destruct c eqn:B; [|discriminate H] end.
      do 6 (apply andb_true_iff in B; let B' := fresh "B" in destruct B as [B B']).
      apply String.eqb_eq in B4. apply Nat.eqb_eq in B2. subst u j.
      destruct (pt_conds b) eqn:Hpc; [|discriminate B0].
      destruct (check_rec t s ks rest ab) as [ps|] eqn:Ecr; [|discriminate H]. injection H as <-.
      destruct (rec_fill t v wh item Hty ex ab s ks b rest d r ps l st regs Hk Hi B B3 B1 Hpc Er Ecr HI) as (pss & st' & E & O & R & U & F).
      exists (concat pss), st', regs. rewrite Hi. cbn [as_list]. rewrite E. cbn [bind]. split; [reflexivity|]. split; [exact O|]. split; [exact R|].
      destruct HI as [Hr HI]. split; [exact Hr|]. intros u Hu. rewrite expect_add, Hh, andb_true_r.
      destruct (String.eqb_spec s u) as [<-|Hne]; [apply F, Hu|]. rewrite U by congruence. apply HI, Hu.
    - destruct (doubles (kind_of t s) && code_ok code && check_loop t v wh ex ab (SType TDouble) code) eqn:B; [|discriminate H]. injection H as <-.
      apply andb_true_iff in B. destruct B as [B B2]. apply andb_true_iff in B. destruct B as [B0 B1].
      pose proof (doubles_nth _ _ B0 (kind_sound t item Hty s)) as Hall. set (l := as_list (item s)) in *.
      destruct (loop_sound arms (fun i => let? p := write_one code WF64 (nth i l (FF64 0)) in Ok [p]) (fun _ st => Inv ab st regs) regs ix) with (st := st)
        as (pss & st' & E & O & R & P).
      + intros pre i st1 _ HI1. assert (Hd : exists d, nth i l (FF64 0) = FF64 d).
        { apply Hall. }
        destruct Hd as [d Hd]. unfold write_one. rewrite Hd. cbn [apply_w bind].
        destruct (check_loop_sound t v wh item ex ab (SType TDouble) code (mk_pair code (VDouble d)) st1 regs) as (st2 & E2 & I2);
          [discriminate|exact B2|reflexivity|exact B1|reflexivity|exact HI1|].
        destruct (code_ok_spec _ B1) as [C0 C1].
        exists [mk_pair code (VDouble d)], st2. split; [reflexivity|]. split; [cbn; right; lia|]. split; [apply reads_step; [exact C0|exact E2]|exact I2].
      + exact HI.
      + exists (concat pss), st', regs. split; [apply map_res_single, E|]. repeat split; try assumption; apply P.
    - destruct (route t ab code) as [[|[| | | |us m'| | | | | |] [|]]|] eqn:Er; try discriminate H.
      match type of H with (if ?c then _ else _) = _ => destruct c eqn:B; [|discriminate H] end. injection H as <-.
      apply andb_true_iff in B. destruct B as [B Hm]. apply andb_true_iff in B. destruct B as [Hc Hl].
      destruct (list_eq_dec string_dec us ss) as [->|]; [|discriminate Hl].
      destruct m, m'; try discriminate Hm.
      + destruct (multi_layer cs code ss st regs ab Hm Hc Er Hh HI) as (x & st' & E & R & I').
        rewrite E. cbn [bind]. exact (One (mk_pair code x) st' regs Hc R I').
      + destruct (multi_dim cs code ss st regs ab Hm Hc Er Hh HI) as (x & st' & E & R & I').
        rewrite E. cbn [bind]. exact (One (mk_pair code x) st' regs Hc R I').
    - destruct (kind_of t s) as [| | | | | | | | | |[]| | | |] eqn:Hk; try discriminate H.
      destruct (route t ab 102) as [[|[| | | | |u| | | | |] [|]]|] eqn:Er; try discriminate H.
      destruct (String.eqb u s && fresh t s ab) eqn:B; [|discriminate H]. apply andb_true_iff in B. destruct B as [B1 B2].
      apply String.eqb_eq in B1. subst u. injection H as <-. destruct (list_kind s _ Hk) as (l & Hi & Hall).
      destruct (exts_fill t v wh item Hty ex ab s l st regs Hk Hi B2 Er HI) as (st' & O & R & U & F).
      eexists. exists st', regs. rewrite Hi. cbn [as_list]. split; [reflexivity|]. split; [exact O|]. split; [exact R|].
      destruct HI as [Hr HI]. split; [exact Hr|]. intros u Hu. rewrite expect_add, Hh, andb_true_r.
      destruct (String.eqb_spec s u) as [<-|Hne]; [apply F, Hu|]. rewrite U by congruence. apply HI, Hu.
    - destruct (kind_of t s) as [| | | | | | | | | |[]| | | |] eqn:Hk; try discriminate H.
      destruct (route t ab 1001) as [[|[| | | | | |u| | | |] [|]]|] eqn:Er; try discriminate H.
      destruct (String.eqb u s && fresh t s ab) eqn:B; [|discriminate H]. apply andb_true_iff in B. destruct B as [B1 B2].
      apply String.eqb_eq in B1. subst u. destruct (list_kind s _ Hk) as (l & Hi & Hall).
      destruct (version_leb R2000 v) eqn:Hv; injection H as <-.
      + destruct (xdatas_fill t v wh item Hty ex ab s l st regs Hk Hi B2 Er Hv HI) as (st' & O & R & U & F).
        eexists. exists st', regs. rewrite Hi. cbn [as_list]. split; [reflexivity|]. split; [exact O|]. split; [exact R|].
        destruct HI as [Hr HI]. split; [exact Hr|]. intros u Hu. rewrite expect_add, Hh, andb_true_r.
        destruct (String.eqb_spec s u) as [<-|Hne]; [apply F, Hu|]. rewrite U by congruence. apply HI, Hu.
      + exists [], st, regs. split; [|split; [exact Logic.I|split; [apply reads_nil|exact HI]]].
        rewrite Hi. cbn [as_list]. f_equal. clear -Hv. induction l as [|y l IH]; [reflexivity|]. cbn [flat_map].
        rewrite IH, app_nil_r. destruct y; try reflexivity. unfold write_xdata. rewrite Hv. reflexivity.
  Qed.

  Lemma cmds_sound : forall l ab ab' st regs, check_cmds t v wh ex ab l = Some ab' -> Inv ab st regs ->
    exists ps st' regs', write_cmds v wh item l = Ok ps /\ okhead ps /\ reads arms ps st regs st' regs' /\ Inv ab' st' regs'.
  Proof.
    induction l as [|c l IH]; intros ab ab' st regs H HI; cbn [check_cmds write_cmds] in *.
    - injection H as <-. exists [], st, regs. split; [reflexivity|]. split; [exact Logic.I|]. split; [apply reads_nil|exact HI].
    - destruct (check_cmd t v wh ex ab c) as [ab1|] eqn:E; [|discriminate H].
      destruct (cmd_sound ab c ab1 st regs E HI) as (p1 & st1 & regs1 & E1 & O1 & R1 & I1).
      destruct (IH ab1 ab' st1 regs1 H I1) as (p2 & st2 & regs2 & E2 & O2 & R2 & I2).
      exists (p1 ++ p2), st2, regs2. rewrite E1. cbn [bind]. rewrite E2. cbn [bind]. split; [reflexivity|].
      split; [apply okhead_app; assumption|]. split; [eapply reads_app; eassumption|exact I2].
  Qed.
End Commands.

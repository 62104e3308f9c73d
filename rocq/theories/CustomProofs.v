(** Lemmas about the objects of CustomModel.v. *)
From Verif Require Import Base TextModel TextProofs CodePairModel VersionModel ExtDataModel ExtDataSpec ExtDataProofs SpecModel SpecSpec SpecCheck SpecProofs
  EnumData ObjectData CustomModel CustomSpec.
From Coq Require Import Permutation.
Open Scope string_scope.
Open Scope list_scope.
Open Scope Z_scope.
Set Default Goal Selector "!".

(** * The loop *)
Lemma loop_mono {A} (body : pair -> A -> feed -> res (A * feed)) : forall fuel it a x,
  next_loop body fuel it a = Ok x -> next_loop body (S fuel) it a = Ok x.
Proof.
  induction fuel as [|f IH]; intros it a x H; [discriminate H|].
  change (next_loop body (S (S f)) it a) with
    (match it with
     | [] => Ok (a, [])
     | Err e :: _ => Err e
     | Ok p :: r => if p_code p =? 0 then Ok (a, it) else let? (a', r') := body p a r in next_loop body (S f) r' a'
     end).
  cbn [next_loop] in H. destruct it as [|[p|e] r]; [exact H| |exact H].
  destruct (p_code p =? 0); [exact H|]. destruct (body p a r) as [[a' r']|e]; cbn [bind] in *; [|discriminate H]. apply IH, H.
Qed.
Lemma loop_more {A} (body : pair -> A -> feed -> res (A * feed)) n : forall fuel it a x,
  next_loop body fuel it a = Ok x -> next_loop body (n + fuel) it a = Ok x.
Proof. induction n as [|n IH]; intros fuel it a x H; [exact H|]. apply loop_mono, IH, H. Qed.

(** [body], having read [ps], goes from [a] to [a']. *)
Definition creads {A} (body : pair -> A -> feed -> res (A * feed)) (ps : list pair) (a a' : A) : Prop :=
  forall rest fuel x, outside_xdata rest -> next_loop body fuel rest a' = Ok x ->
    next_loop body (length ps + fuel) (map Ok ps ++ rest) a = Ok x.
Lemma creads_nil {A} body (a : A) : creads body [] a a.
Proof. intros rest fuel x _ H. exact H. Qed.
Lemma creads_app {A} body ps qs (a b c : A) : okhead qs -> creads body ps a b -> creads body qs b c -> creads body (ps ++ qs) a c.
Proof.
  intros Hq H1 H2 rest fuel x Ho H. rewrite map_app, <- app_assoc, app_length, <- Nat.add_assoc.
  apply H1; [apply okhead_outside; assumption|]. apply H2; assumption.
Qed.
Lemma creads_step {A} (body : pair -> A -> feed -> res (A * feed)) p a a' : p_code p <> 0 -> (forall it, body p a it = Ok (a', it)) ->
  creads body [p] a a'.
Proof.
  intros Hp Hb rest fuel x _ H. cbn [length map app Nat.add next_loop]. replace (p_code p =? 0) with false by lia. rewrite Hb. exact H.
Qed.
Lemma creads_cons {A} (body : pair -> A -> feed -> res (A * feed)) p ps a b c : p_code p <> 0 -> okhead ps ->
  (forall it, body p a it = Ok (b, it)) -> creads body ps b c -> creads body (p :: ps) a c.
Proof. intros Hp Ho Hb H. change (p :: ps) with ([p] ++ ps). eapply creads_app; [exact Ho|apply creads_step; eassumption|exact H]. Qed.
(** The whole object, followed by the next one. *)
Lemma creads_loop {A} (body : pair -> A -> feed -> res (A * feed)) ps a a' rest : creads body ps a a' -> next_item rest ->
  next_loop body (S (length (map Ok ps ++ rest))) (map Ok ps ++ rest) a = Ok (a', rest).
Proof.
  intros H (p & r & -> & Hp).
  assert (R : next_loop body 1 (Ok p :: r) a' = Ok (a', Ok p :: r)) by (cbn [next_loop]; rewrite Hp; reflexivity).
  assert (Ho : outside_xdata (Ok p :: r)) by (cbn; right; lia).
  pose proof (H (Ok p :: r) 1%nat _ Ho R) as H1. apply (loop_more _ (S (length r))) in H1.
  replace (S (length (map Ok ps ++ Ok p :: r))) with (S (length r) + (length ps + 1))%nat by (rewrite app_length, map_length; cbn [length]; lia).
  exact H1.
Qed.

(** * The common fields *)
Section Common.
  Context {A : Type} (body : pair -> A -> feed -> res (A * feed)) (get : A -> store) (put : A -> store -> A).
  Hypothesis get_put : forall a s, get (put a s) = s.
  Hypothesis put_put : forall a s s', put (put a s) s' = put a s'.
  Definition falls (P : A -> Prop) (code : Z) : Prop := forall p a it, P a -> p_code p = code ->
    body p a it = (let? (st, it') := common_apply p (get a) it in Ok (put a st, it')).

  Lemma common_handle P (a : A) s h code : falls P code -> P a -> (h < 2 ^ 64)%N -> code <> 0 ->
    find_arm ocommon_arms code [] = Some [ASet s RHandle] ->
    creads body [mk_pair code (VStr (handle_as_string h))] a (put a (upd (get a) s (FHandle h))).
  Proof.
    intros Hf Ha Hh Hc Harm. apply creads_step; [exact Hc|]. intros it. rewrite Hf by (exact Ha || reflexivity). unfold common_apply, step. cbn [p_code].
    rewrite Harm. cbn [acts act apply_r]. unfold as_handle, assert_string. cbn [p_value bind].
    rewrite handle_roundtrip by (unfold is_u64; lia). reflexivity.
  Qed.
  Hypothesis put_get : forall a, put a (get a) = a.
  Lemma common_exts (P : A -> Prop) : falls P 102 -> (forall a s, P a -> P (put a s)) -> forall l a pre, P a -> Forall (has_kind KExt) l ->
    get a "common.extension_data_groups" = FList pre ->
    exists st', okhead (flat_map (fun x => match x with FExt g => write_ext_group g | _ => [] end) l) /\
      creads body (flat_map (fun x => match x with FExt g => write_ext_group g | _ => [] end) l) a (put a st') /\
      (forall u, u <> "common.extension_data_groups" -> st' u = get a u) /\ st' "common.extension_data_groups" = FList (pre ++ l).
  Proof.
    intros Hf HP. induction l as [|x l IH]; intros a pre Ha Hl Hg.
    - exists (get a). split; [exact Logic.I|]. rewrite put_get. split; [apply creads_nil|]. split; [reflexivity|]. rewrite app_nil_r. exact Hg.
    - inversion_clear Hl as [|? ? Hx Hl']. destruct Hx as (g & -> & Hne & Hst).
      set (st1 := upd (get a) "common.extension_data_groups" (push (get a "common.extension_data_groups") (FExt g))).
      destruct (IH (put a st1) (pre ++ [FExt g])) as (st' & O' & R' & Hu & Hs); [apply HP, Ha|exact Hl'| |].
      { rewrite get_put. unfold st1. rewrite upd_eq, Hg. reflexivity. }
      rewrite put_put in R'. rewrite get_put in Hu.
      assert (W : write_ext_group g = group_open (eg_name g) :: flat_map write_ext_item (eg_items g) ++ [group_close]).
      { destruct g as [n [|y li]]; [contradiction|reflexivity]. }
      exists st'. cbn [flat_map]. split; [apply okhead_app; [rewrite W; cbn; right; lia|exact O']|]. split; [|split].
      + eapply creads_app; [exact O'| |exact R'].
        intros rest fuel z _ H. rewrite W. cbn [length map app]. rewrite Nat.add_succ_l. cbn [next_loop].
        change (p_code (group_open (eg_name g)) =? 0) with false. cbn iota. rewrite Hf by (exact Ha || reflexivity).
        unfold common_apply, step. change (p_code (group_open (eg_name g))) with 102.
        change (find_arm ocommon_arms 102 []) with (Some [AExt "common.extension_data_groups"]). cbn [acts act].
        unfold assert_string. cbn [group_open p_value bind].
        rewrite (proj2 (read_group_spec _ _ g rest)).
        2:{ exists (flat_map write_ext_item (eg_items g)). split; [reflexivity|]. split; [apply write_items_renders, Hst|].
            rewrite map_app, <- app_assoc. reflexivity. }
        cbn [bind fst snd]. apply loop_more. exact H.
      + intros u Hne'. rewrite Hu by exact Hne'. unfold st1. apply upd_ne. exact Hne'.
      + rewrite Hs, <- app_assoc. reflexivity.
  Qed.
  Lemma common_xdatas (P : A -> Prop) v : falls P 1001 -> (forall a s, P a -> P (put a s)) -> version_leb R2000 v = true -> forall l a pre, P a -> Forall (has_kind KXd) l ->
    get a "common.x_data" = FList pre ->
    exists st', okhead (flat_map (fun x => match x with FXd d => write_xdata v d | _ => [] end) l) /\
      creads body (flat_map (fun x => match x with FXd d => write_xdata v d | _ => [] end) l) a (put a st') /\
      (forall u, u <> "common.x_data" -> st' u = get a u) /\ st' "common.x_data" = FList (pre ++ l).
  Proof.
    intros Hf HP Hv. induction l as [|x l IH]; intros a pre Ha Hl Hg.
    - exists (get a). split; [exact Logic.I|]. rewrite put_get. split; [apply creads_nil|]. split; [reflexivity|]. rewrite app_nil_r. exact Hg.
    - inversion_clear Hl as [|? ? Hx Hl']. destruct Hx as (d & -> & Hwf).
      set (st1 := upd (get a) "common.x_data" (push (get a "common.x_data") (FXd d))).
      destruct (IH (put a st1) (pre ++ [FXd d])) as (st' & O' & R' & Hu & Hs); [apply HP, Ha|exact Hl'| |].
      { rewrite get_put. unfold st1. rewrite upd_eq, Hg. reflexivity. }
      rewrite put_put in R'. rewrite get_put in Hu.
      exists st'. cbn [flat_map]. split; [apply okhead_app; [unfold write_xdata; rewrite Hv; left; reflexivity|exact O']|]. split; [|split].
      + eapply creads_app; [exact O'| |exact R'].
        intros rest fuel z Ho H. destruct (xdata_roundtrip v d rest Hv Hwf Ho) as (bd & Ew & Er). rewrite Ew.
        cbn [length map app]. rewrite Nat.add_succ_l. cbn [next_loop p_code]. change (1001 =? 0) with false. cbn iota.
        rewrite Hf by (exact Ha || reflexivity). unfold common_apply, step. cbn [p_code].
        change (find_arm ocommon_arms 1001 []) with (Some [AXdata "common.x_data"]). cbn [acts act].
        unfold assert_string. cbn [p_value bind]. rewrite Er. cbn [bind fst snd]. apply loop_more. exact H.
      + intros u Hne'. rewrite Hu by exact Hne'. unfold st1. apply upd_ne. exact Hne'.
      + rewrite Hs, <- app_assoc. reflexivity.
  Qed.

  (** What the common fields are before the extended data are read. *)
  Definition common_head (v : version) (item st' : store) (base : store) : Prop :=
    st' "common.handle" = item "common.handle" /\ st' "common.__owner_handle" = item "common.__owner_handle" /\
    st' "common.extension_data_groups" = (if version_leb R14 v then item "common.extension_data_groups" else FList []) /\
    (forall u, ~ In u ["common.handle"; "common.__owner_handle"; "common.extension_data_groups"] -> st' u = base u).

  Lemma common_typed_fields item : common_typed item -> exists h o gs xs,
    item "common.handle" = FHandle h /\ (h < 2 ^ 64)%N /\ item "common.__owner_handle" = FHandle o /\ (o < 2 ^ 64)%N /\
    item "common.extension_data_groups" = FList gs /\ Forall (has_kind KExt) gs /\
    item "common.x_data" = FList xs /\ Forall (has_kind KXd) xs.
  Proof.
    intros H. unfold common_typed, ocommon_fields in H.
    destruct (H _ (or_introl eq_refl)) as (h & Eh & Hh).
    destruct (H _ (or_intror (or_introl eq_refl))) as (gs & Eg & Hg).
    destruct (H _ (or_intror (or_intror (or_introl eq_refl)))) as (xs & Ex & Hx).
    destruct (H _ (or_intror (or_intror (or_intror (or_introl eq_refl))))) as (o & Eo & Ho).
    exists h, o, gs, xs. repeat split; assumption.
  Qed.

  Lemma common_pre (P : A -> Prop) v item a : (forall c, In c [5; 102; 330] -> falls P c) -> (forall a s, P a -> P (put a s)) -> P a ->
    common_typed item -> get a "common.extension_data_groups" = FList [] -> get a "common.__owner_handle" = FHandle 0 ->
    exists ps st', write_ocommon v item = Ok ps /\ okhead ps /\ creads body ps a (put a st') /\ common_head v item st' (get a).
  Proof.
    intros Hf HP Ha Hty Hg Ho. destruct (common_typed_fields item Hty) as (h & o & gs & xs & Eh & Hh & Eo & Hob & Eg & Hgs & _ & _).
    assert (F5 : falls P 5) by (apply Hf; cbn; tauto). assert (F102 : falls P 102) by (apply Hf; cbn; tauto).
    assert (F330 : falls P 330) by (apply Hf; cbn; tauto).
    set (st1 := upd (get a) "common.handle" (FHandle h)).
    pose proof (common_handle P a "common.handle" h 5 F5 Ha Hh ltac:(lia) eq_refl) as R1. fold st1 in R1.
    assert (X : exists ps2 st2, (if version_leb R14 v then flat_map (fun x => match x with FExt g => write_ext_group g | _ => [] end) gs else []) = ps2 /\ okhead ps2 /\
      creads body ps2 (put a st1) (put a st2) /\ (forall u, u <> "common.extension_data_groups" -> st2 u = st1 u) /\
      st2 "common.extension_data_groups" = (if version_leb R14 v then FList gs else FList [])).
    { destruct (version_leb R14 v).
      - destruct (common_exts P F102 HP gs (put a st1) []) as (st' & O' & R' & Hu & Hs); [apply HP, Ha|exact Hgs|rewrite get_put; exact Hg|].
        rewrite put_put in R'. rewrite get_put in Hu. eexists. exists st'. split; [reflexivity|]. split; [exact O'|]. split; [exact R'|]. split; [exact Hu|exact Hs].
      - exists [], st1. split; [reflexivity|]. split; [exact Logic.I|]. split; [apply creads_nil|]. split; [reflexivity|]. exact Hg. }
    destruct X as (ps2 & st2 & E2 & O2 & R2 & U2 & S2).
    set (st3 := if (o =? 0)%N then st2 else upd st2 "common.__owner_handle" (FHandle o)).
    set (ps3 := if (o =? 0)%N then [] else [mk_pair 330 (VStr (handle_as_string o))]).
    assert (R3 : creads body ps3 (put a st2) (put a st3)).
    { unfold ps3, st3. destruct (o =? 0)%N; [apply creads_nil|].
      pose proof (common_handle P (put a st2) "common.__owner_handle" o 330 F330 (HP a st2 Ha) Hob ltac:(lia) eq_refl) as R.
      rewrite put_put, get_put in R. exact R. }
    assert (O3 : okhead ps3) by (unfold ps3; destruct (o =? 0)%N; cbn; [exact Logic.I|right; lia]).
    exists ([mk_pair 5 (VStr (handle_as_string h))] ++ ps2 ++ ps3), st3. split; [|split; [|split]].
    - unfold write_ocommon, ocommon_cmds. cbn [write_cmds]. unfold write_cmd, all_hold. cbn [cmd_conds forallb andb write_body]. rewrite Eh, Eg, Eo.
      unfold write_one. cbn [apply_w bind holds existsb as_list andb orb]. rewrite Eo. cbn [differs]. rewrite !andb_true_r, !orb_false_r. rewrite <- E2. unfold ps3.
      destruct (version_leb R14 v); cbn [bind]; destruct (o =? 0)%N eqn:E0; cbn [negb bind app]; rewrite ?app_nil_r; reflexivity.
    - cbn. right. lia.
    - eapply creads_app; [apply okhead_app; assumption|exact R1|]. eapply creads_app; [exact O3|exact R2|exact R3].
    - assert (E3 : forall u, u <> "common.__owner_handle" -> st3 u = st2 u).
      { intros u Hu. unfold st3. destruct (o =? 0)%N; [reflexivity|]. apply upd_ne, Hu. }
      split; [|split; [|split]].
      + rewrite E3, U2 by discriminate. unfold st1. rewrite upd_eq, Eh. reflexivity.
      + rewrite Eo. unfold st3. destruct (o =? 0)%N eqn:E0; [|apply upd_eq]. rewrite U2 by discriminate. unfold st1. rewrite upd_ne by discriminate.
        rewrite Ho. f_equal. lia.
      + rewrite E3 by discriminate. rewrite S2, Eg. destruct (version_leb R14 v); reflexivity.
      + intros u Hu. cbn [In] in Hu. rewrite E3, U2 by (intros ->; apply Hu; auto). unfold st1. apply upd_ne. intros ->. apply Hu. auto.
  Qed.

  Lemma common_post (P : A -> Prop) v item a : falls P 1001 -> (forall a s, P a -> P (put a s)) -> P a -> common_typed item -> get a "common.x_data" = FList [] ->
    exists st', okhead (write_oxdata v item) /\ creads body (write_oxdata v item) a (put a st') /\
      (forall u, u <> "common.x_data" -> st' u = get a u) /\
      st' "common.x_data" = (if version_leb R2000 v then item "common.x_data" else FList []).
  Proof.
    intros Hf HP Ha Hty Hg. destruct (common_typed_fields item Hty) as (h & o & gs & xs & _ & _ & _ & _ & _ & _ & Ex & Hx).
    unfold write_oxdata. rewrite Ex. cbn [as_list]. destruct (version_leb R2000 v) eqn:Hv.
    - exact (common_xdatas P v Hf HP Hv xs a [] Ha Hx Hg).
    - exists (get a). assert (E : flat_map (fun x => match x with FXd d => write_xdata v d | _ => [] end) xs = []).
      { clear -Hv. induction xs as [|x xs IH]; [reflexivity|]. cbn [flat_map]. rewrite IH, app_nil_r. destruct x; try reflexivity.
        unfold write_xdata. rewrite Hv. reflexivity. }
      rewrite E, put_get. split; [exact Logic.I|]. split; [apply creads_nil|]. split; [reflexivity|exact Hg].
  Qed.
End Common.

(** The prefix and suffix together give all common fields. *)
Lemma common_back_intro v lost item st0 st1 st2 :
  common_head v item st1 st0 -> (forall u, u <> "common.x_data" -> st2 u = st1 u) ->
  (In "common.x_data" lost \/ st2 "common.x_data" = (if version_leb R2000 v then item "common.x_data" else FList [])) ->
  common_back v lost item st2.
Proof.
  intros (H1 & H2 & H3 & _) Hu Hx f Hf Hl. unfold ocommon_fields in Hf. cbn [In] in Hf.
  assert (Since : forall m ks, (stored v true item (mk_field (f_name f) (f_kind f) true ks [mk_win (Some m) None false None] [])) <-> version_leb m v = true).
  { intros m ks. unfold stored, window_applies. cbn [f_windows In w_min w_max w_handles w_when]. unfold version_leb. split.
    - intros (w & [<-|[]] & H & _). cbn in H. lia.
    - intros H. eexists. split; [left; reflexivity|]. cbn. repeat split; try discriminate. lia. }
  assert (Ever : forall ks, stored v true item (mk_field (f_name f) (f_kind f) true ks [mk_win None None false None] [])).
  { intros ks. unfold stored, window_applies. eexists. split; [left; reflexivity|]. cbn. repeat split. }
  destruct Hf as [<-|[<-|[<-|[<-|[]]]]]; cbn [f_name f_kind] in *.
  - split; [intros _; rewrite Hu by discriminate; exact H1|]. intros N. destruct N. apply Ever.
  - rewrite Since. rewrite Hu by discriminate. rewrite H3. split; [intros ->; reflexivity|]. intros N. destruct (version_leb R14 v); [destruct (N eq_refl)|reflexivity].
  - rewrite Since. destruct Hx as [Hx|Hx]; [contradiction|]. rewrite Hx. split; [intros ->; reflexivity|].
    intros N. destruct (version_leb R2000 v); [destruct (N eq_refl)|reflexivity].
  - split; [intros _; rewrite Hu by discriminate; exact H2|]. intros N. destruct N. apply Ever.
Qed.

(** * Sorted keys *)
Lemma str_leb_total : forall a b, str_leb a b = true \/ str_leb b a = true.
Proof.
  induction a as [|x a IH]; intros [|y b]; cbn [str_leb]; auto.
  destruct (x <? y)%N eqn:E1; [auto|]. destruct (y <? x)%N eqn:E2; auto.
Qed.
Lemma str_leb_antisym : forall a b, str_leb a b = true -> str_leb b a = true -> a = b.
Proof.
  induction a as [|x a IH]; intros [|y b] H1 H2; cbn [str_leb] in *; try discriminate; [reflexivity|].
  destruct (x <? y)%N eqn:E1; destruct (y <? x)%N eqn:E2; try discriminate.
  - lia.
  - f_equal; [lia|]. apply IH; assumption.
Qed.
Lemma str_leb_trans : forall a b c, str_leb a b = true -> str_leb b c = true -> str_leb a c = true.
Proof.
  induction a as [|x a IH]; intros [|y b] [|z c] H1 H2; cbn [str_leb] in *; try discriminate; try reflexivity.
  destruct (x <? y)%N eqn:E1, (y <? x)%N eqn:E2, (y <? z)%N eqn:E3, (z <? y)%N eqn:E4, (x <? z)%N eqn:E5, (z <? x)%N eqn:E6;
    try discriminate; try reflexivity; try lia. exact (IH b c H1 H2).
Qed.
Lemma sort_insert_comm a b : forall l, sort_insert a (sort_insert b l) = sort_insert b (sort_insert a l).
Proof.
  assert (Two : forall r, (if str_leb a b then a :: b :: r else b :: a :: r) = (if str_leb b a then b :: a :: r else a :: b :: r) \/
    (str_leb a b = true /\ str_leb b a = true)).
  { intros r. destruct (str_leb a b) eqn:E1, (str_leb b a) eqn:E2; auto. destruct (str_leb_total a b); congruence. }
  induction l as [|x r IH]; cbn [sort_insert].
  - destruct (str_leb a b) eqn:E1, (str_leb b a) eqn:E2; try reflexivity.
    + rewrite (str_leb_antisym a b E1 E2). reflexivity.
    + destruct (str_leb_total a b); congruence.
  - destruct (str_leb b x) eqn:Eb, (str_leb a x) eqn:Ea; cbn [sort_insert]; rewrite ?Ea, ?Eb.
    + destruct (str_leb a b) eqn:E1, (str_leb b a) eqn:E2; try reflexivity.
      * rewrite (str_leb_antisym a b E1 E2). reflexivity.
      * destruct (str_leb_total a b); congruence.
    + destruct (str_leb a b) eqn:E1; [|reflexivity]. rewrite (str_leb_trans a b x E1 Eb) in Ea. discriminate Ea.
    + destruct (str_leb b a) eqn:E1; [|reflexivity]. rewrite (str_leb_trans b a x E1 Ea) in Eb. discriminate Eb.
    + rewrite IH. reflexivity.
Qed.
Lemma sort_keys_perm l l' : Permutation l l' -> sort_keys l = sort_keys l'.
Proof.
  induction 1; cbn [sort_keys]; [reflexivity|congruence|apply sort_insert_comm|congruence].
Qed.
Lemma sort_insert_permutation k l : Permutation (k :: l) (sort_insert k l).
Proof.
  induction l as [|x r IH]; cbn [sort_insert]; [reflexivity|]. destruct (str_leb k x); [reflexivity|].
  rewrite perm_swap. constructor. exact IH.
Qed.
Lemma sort_permutation l : Permutation l (sort_keys l).
Proof. induction l as [|k l IH]; [reflexivity|]. cbn [sort_keys]. rewrite <- sort_insert_permutation. constructor. exact IH. Qed.
Lemma str_leb_lt a b : str_leb a b = true -> a <> b -> str_lt a b.
Proof.
  revert b. induction a as [|x a IH]; intros [|y b] H Hne; cbn [str_leb] in H; try discriminate; [congruence|constructor|].
  destruct (x <? y)%N eqn:E1; [constructor; lia|]. destruct (y <? x)%N eqn:E2; [discriminate H|].
  assert (x = y) by lia. subst y. apply str_lt_tail, IH; [exact H|congruence].
Qed.
Lemma sort_insert_increasing k : forall l, increasing l -> ~ In k l -> increasing (sort_insert k l).
Proof.
  assert (G : forall x y, str_leb x y = false -> str_lt y x).
  { intros x y H. destruct (str_leb_total x y) as [T|T]; [congruence|]. apply str_leb_lt; [exact T|]. intros ->. congruence. }
  induction 1 as [|s|s t l Hst Hl IH]; intros Hk; cbn [sort_insert].
  - constructor.
  - destruct (str_leb k s) eqn:E; constructor; try constructor.
    + apply str_leb_lt; [exact E|]. intros ->. apply Hk. left. reflexivity.
    + apply G, E.
  - destruct (str_leb k s) eqn:E.
    + constructor; [|constructor; assumption]. apply str_leb_lt; [exact E|]. intros ->. apply Hk. left. reflexivity.
    + assert (Hk' : ~ In k (t :: l)) by (intros Hi; apply Hk; right; exact Hi). specialize (IH Hk'). cbn [sort_insert] in IH.
      destruct (str_leb k t) eqn:E2.
      * constructor; [apply G, E|exact IH].
      * constructor; [exact Hst|exact IH].
Qed.
Lemma sort_increasing l : NoDup l -> increasing (sort_keys l).
Proof.
  induction 1 as [|k l Hk Hl IH]; cbn [sort_keys]; [constructor|]. apply sort_insert_increasing; [exact IH|].
  intros Hi. apply Hk. apply (Permutation_in _ (Permutation_sym (sort_permutation l))). exact Hi.
Qed.

(** * Maps *)
Lemma get_entry_In m : NoDup (map fst m) -> forall k h, In (k, h) m -> get_entry k m = Some h.
Proof.
  induction m as [|[k' h'] m IH]; intros Hn k h Hi; [destruct Hi|]. cbn [get_entry]. destruct Hi as [E|Hi].
  - injection E as <- <-. rewrite seqb_refl. reflexivity.
  - inversion_clear Hn as [|? ? Hk Hm]. rewrite (proj2 (seqb_neq k k')); [apply IH; assumption|].
    intros ->. apply Hk. apply in_map_iff. exists (k', h). split; [reflexivity|exact Hi].
Qed.
Lemma get_entry_Some m : forall k h, get_entry k m = Some h -> In (k, h) m.
Proof.
  induction m as [|[k' h'] m IH]; intros k h H; cbn [get_entry] in H; [discriminate H|].
  destruct (seqb k k') eqn:E; [|right; apply IH, H]. apply seqb_eq in E. subst k'. injection H as <-. left. reflexivity.
Qed.
Lemma get_entry_perm m m' : Permutation m m' -> NoDup (map fst m) -> forall k, get_entry k m = get_entry k m'.
Proof.
  intros Hp Hn k. assert (Hn' : NoDup (map fst m')) by (eapply Permutation_NoDup; [apply Permutation_map, Hp|exact Hn]).
  destruct (get_entry k m) as [h|] eqn:E1.
  - symmetry. apply get_entry_In; [exact Hn'|]. eapply Permutation_in; [exact Hp|]. apply get_entry_Some, E1.
  - destruct (get_entry k m') as [h|] eqn:E2; [|reflexivity]. apply get_entry_Some in E2.
    apply (Permutation_in _ (Permutation_sym Hp)) in E2. rewrite (get_entry_In m Hn k h E2) in E1. discriminate E1.
Qed.
Lemma write_entries_perm code m m' : Permutation m m' -> NoDup (map fst m) -> write_entries code m = write_entries code m'.
Proof.
  intros Hp Hn. unfold write_entries. rewrite (sort_keys_perm _ _ (Permutation_map fst Hp)).
  induction (sort_keys (map fst m')) as [|k l IH]; [reflexivity|]. cbn [flat_map]. rewrite IH, (get_entry_perm m m' Hp Hn k). reflexivity.
Qed.
Lemma insert_new k h m : ~ In k (map fst m) -> insert_entry k h m = m ++ [(k, h)].
Proof.
  induction m as [|[k' h'] m IH]; intros Hn; [reflexivity|]. cbn [insert_entry map fst In] in *.
  rewrite (proj2 (seqb_neq k k')); [|intros ->; apply Hn; left; reflexivity]. rewrite IH; [reflexivity|]. intros Hi. apply Hn. right. exact Hi.
Qed.

(** The entries in the order they are written. *)
Definition sorted_entries (m : entries) : entries :=
  flat_map (fun k => match get_entry k m with Some h => [(k, h)] | None => [] end) (sort_keys (map fst m)).
Lemma write_sorted code m : write_entries code m = flat_map (fun e => [new_str 3 (fst e); new_str code (handle_as_string (snd e))]) (sorted_entries m).
Proof.
  unfold write_entries, sorted_entries. induction (sort_keys (map fst m)) as [|k l IH]; [reflexivity|]. cbn [flat_map]. rewrite IH.
  destruct (get_entry k m); reflexivity.
Qed.
Lemma sorted_entries_keys m : map fst (sorted_entries m) = sort_keys (map fst m).
Proof.
  unfold sorted_entries. assert (H : forall k, In k (sort_keys (map fst m)) -> In k (map fst m)).
  { intros k Hk. eapply Permutation_in; [apply Permutation_sym, sort_permutation|exact Hk]. }
  induction (sort_keys (map fst m)) as [|k l IH]; [reflexivity|]. cbn [flat_map]. rewrite map_app, IH by (intros x Hx; apply H; right; exact Hx).
  assert (E : exists h, get_entry k m = Some h).
  { pose proof (H k (or_introl eq_refl)) as Hk. clear -Hk. induction m as [|[k' h'] m IH]; [destruct Hk|]. cbn [get_entry].
    destruct (seqb k k') eqn:E; [eexists; reflexivity|]. destruct Hk as [<-|Hk]; [cbn in E; rewrite seqb_refl in E; discriminate E|apply IH, Hk]. }
  destruct E as [h ->]. reflexivity.
Qed.
Lemma sorted_entries_same m : NoDup (map fst m) -> same_entries m (sorted_entries m).
Proof.
  intros Hn k h. unfold sorted_entries. rewrite in_flat_map. split.
  - intros Hi. exists k. split.
    + eapply Permutation_in; [apply sort_permutation|]. apply in_map_iff. exists (k, h). auto.
    + rewrite (get_entry_In m Hn k h Hi). left. reflexivity.
  - intros (k' & _ & Hi). destruct (get_entry k' m) as [h'|] eqn:E; [|destruct Hi]. destruct Hi as [Hi|[]]. injection Hi as <- <-. apply get_entry_Some, E.
Qed.

(** Reading entries with distinct keys. *)
Lemma entries_read (body : pair -> store * dict * rstring -> feed -> res (store * dict * rstring * feed)) code :
  code <> 0 -> code < 1000 ->
  (forall st d last s it, body (new_str 3 s) (st, d, last) it = Ok (st, d, s, it)) ->
  (forall st d last s it, body (new_str code s) (st, d, last) it = (let? h := as_handle (new_str code s) in Ok (st, di_put last h d, last, it))) ->
  forall l st d last, NoDup (map fst (di_values d) ++ map fst l) -> Forall (fun e => (snd e < 2 ^ 64)%N) l ->
  exists last', okhead (flat_map (fun e => [new_str 3 (fst e); new_str code (handle_as_string (snd e))]) l) /\
    creads body (flat_map (fun e => [new_str 3 (fst e); new_str code (handle_as_string (snd e))]) l) (st, d, last)
      (st, mk_dict (di_hard d) (di_dup d) (di_default d) (di_values d ++ l), last').
Proof.
  intros Hc Hc' H3 Hcode. induction l as [|[k h] l IH]; intros st d last Hn Hl.
  - exists last. split; [exact Logic.I|]. rewrite app_nil_r. destruct d. apply creads_nil.
  - inversion_clear Hl as [|? ? Hh Hl']. cbn [map fst snd] in *.
    destruct (IH st (di_put k h d) k) as (last' & O & R).
    { cbn [di_put di_values]. rewrite insert_new by (apply NoDup_remove_2 in Hn; intros Hi; apply Hn, in_or_app; left; exact Hi).
      rewrite map_app, <- app_assoc. exact Hn. }
    { exact Hl'. }
    exists last'. split; [cbn; right; lia|]. cbn [flat_map app fst snd].
    eapply creads_cons; [cbn; lia|cbn; right; lia|intros it; apply H3|].
    eapply creads_cons; [exact Hc|exact O|intros it; rewrite Hcode; unfold as_handle, assert_string; cbn [new_str p_value bind];
      rewrite handle_roundtrip by (unfold is_u64; lia); reflexivity|].
    cbn [di_put di_values di_hard di_dup di_default] in R. rewrite insert_new in R by (apply NoDup_remove_2 in Hn; intros Hi; apply Hn, in_or_app; left; exact Hi).
    rewrite <- app_assoc in R. exact R.
Qed.

(** * Dictionaries *)
Definition dget (a : store * dict * rstring) : store := fst (fst a).
Definition dput (a : store * dict * rstring) (s : store) : store * dict * rstring := (s, snd (fst a), snd a).
Lemma dget_dput a s : dget (dput a s) = s.
Proof. reflexivity. Qed.
Lemma dput_dput a s s' : dput (dput a s) s' = dput a s'.
Proof. reflexivity. Qed.
Lemma dput_dget a : dput a (dget a) = a.
Proof. destruct a as [[s d] l]. reflexivity. Qed.
Definition anystate {A} (a : A) : Prop := True.
Lemma dict_falls c : In c [5; 102; 330; 1001; 100] -> falls dict_body dget dput anystate c.
Proof.
  intros Hc p [[st d] last] it _ Hp. unfold dict_body. rewrite Hp.
  destruct Hc as [<-|[<-|[<-|[<-|[<-|[]]]]]]; reflexivity.
Qed.
Lemma dictd_falls c : In c [5; 102; 330; 1001; 100] -> falls dictd_body dget dput anystate c.
Proof.
  intros Hc p [[st d] last] it _ Hp. unfold dictd_body. rewrite Hp.
  destruct Hc as [<-|[<-|[<-|[<-|[<-|[]]]]]]; reflexivity.
Qed.
Lemma falls_marker {A} (body : pair -> A -> feed -> res (A * feed)) get put (P : A -> Prop) a s :
  falls body get put P 100 -> P a -> put a (get a) = a -> creads body [new_str 100 s] a a.
Proof.
  intros Hf Ha Hp. apply creads_step; [discriminate|]. intros it. rewrite Hf by (exact Ha || reflexivity). unfold common_apply, step.
  change (find_arm ocommon_arms (p_code (new_str 100 s)) []) with (@None (list action)). cbn [bind fst]. rewrite Hp. reflexivity.
Qed.
Lemma dup_id z : In z e_DictionaryDuplicateRecordHandling -> dup_of z = z.
Proof.
  intros H. unfold dup_of, enum_of. replace (existsb (Z.eqb z) e_DictionaryDuplicateRecordHandling) with true; [reflexivity|].
  symmetry. apply existsb_exists. exists z. split; [exact H|lia].
Qed.

Lemma dict_roundtrip v item d : common_typed item -> dict_typed d ->
  exists ps st' d', write_dict v item d = Ok ps /\ (forall rest, next_item rest -> read_dict (map Ok ps ++ rest) = Ok (st', d', rest)) /\
    common_back v [] item st' /\ same_entries (di_values d) (di_values d') /\ map fst (di_values d') = sort_keys (map fst (di_values d)) /\
    di_hard d' = false /\ di_dup d' = (if version_leb R2000 v then di_dup d else 0) /\ di_default d' = 0%N.
Proof.
  intros Hty (Hdup & _ & Hmap & Hh).
  set (a0 := (common_default, dict_default, @nil N) : store * dict * rstring).
  destruct (common_pre dict_body dget dput dget_dput dput_dput dput_dget anystate v item a0) as (ps1 & st1 & E1 & O1 & R1 & C1);
    [intros c Hc; apply dict_falls; cbn in *; tauto|intros; exact Logic.I|exact Logic.I|exact Hty|reflexivity|reflexivity|].
  change (dput a0 st1) with (st1, dict_default, @nil N) in R1.
  pose proof (falls_marker dict_body dget dput anystate (st1, dict_default, []) (str "AcDbDictionary")
    (dict_falls 100 ltac:(cbn; tauto)) Logic.I (dput_dget _)) as R2.
  set (d1 := mk_dict false (if version_leb R2000 v then di_dup d else 0) 0 []).
  set (ps3 := (if version_leb R2000 v && negb (di_hard d) then [new_i16 280 (if di_hard d then 1 else 0)] else [])
        ++ (if version_leb R2000 v then [new_i16 281 (di_dup d)] else [])).
  assert (R3 : creads dict_body ps3 (st1, dict_default, []) (st1, d1, [])).
  { unfold ps3, d1. destruct (version_leb R2000 v); [|apply creads_nil]. cbn [andb].
    assert (Rd : creads dict_body [new_i16 281 (di_dup d)] (st1, dict_default, []) (st1, mk_dict false (di_dup d) 0 [], [])).
    { apply creads_step; [discriminate|]. intros it. unfold dict_body, assert_i16. cbn [new_i16 p_code p_value Z.eqb Pos.eqb bind].
      rewrite dup_id by exact Hdup. reflexivity. }
    destruct (di_hard d); cbn [negb app]; [exact Rd|].
    eapply creads_cons; [discriminate|cbn; right; lia| |exact Rd]. intros it. reflexivity. }
  assert (O3 : okhead ps3).
  { unfold ps3. destruct (version_leb R2000 v), (di_hard d); cbn; try exact Logic.I; right; lia. }
  set (code := if di_hard d then 360 else 350).
  destruct (entries_read dict_body code) with (l := sorted_entries (di_values d)) (st := st1) (d := d1) (last := @nil N) as (last & O4 & R4).
  { unfold code. destruct (di_hard d); discriminate. }
  { unfold code. destruct (di_hard d); reflexivity. }
  { reflexivity. }
  { unfold code. intros. destruct (di_hard d); reflexivity. }
  { cbn [d1 di_values map app]. rewrite sorted_entries_keys. eapply Permutation_NoDup; [apply sort_permutation|exact Hmap]. }
  { apply Forall_forall. intros [k h] Hi. apply (sorted_entries_same _ Hmap) in Hi. rewrite Forall_forall in Hh. exact (Hh _ Hi). }
  cbn [d1 di_hard di_dup di_default di_values app] in R4.
  set (d' := mk_dict false (if version_leb R2000 v then di_dup d else 0) 0 (sorted_entries (di_values d))).
  destruct (common_post dict_body dget dput dget_dput dput_dput dput_dget anystate v item (st1, d', last)) as (st2 & O5 & R5 & U5 & X5);
    [apply dict_falls; cbn; tauto|intros; exact Logic.I|exact Logic.I|exact Hty| |].
  { cbn [dget fst]. rewrite (proj2 (proj2 (proj2 C1))) by (cbn; intuition discriminate). reflexivity. }
  eexists. exists st2, d'. split; [|split; [|split]].
  - unfold write_dict. rewrite E1. cbn [bind]. rewrite app_assoc with (m := (if version_leb R2000 v then [new_i16 281 (di_dup d)] else [])).
    fold ps3. fold code. rewrite write_sorted. reflexivity.
  - intros rest Hrest. unfold read_dict. rewrite (creads_loop dict_body _ a0 (st2, d', last) rest); [reflexivity| |exact Hrest].
    eapply creads_app; [|exact R1|].
    { cbn. right. lia. }
    eapply creads_app; [|exact R2|].
    { apply okhead_app; [exact O3|]. apply okhead_app; assumption. }
    eapply creads_app; [apply okhead_app; assumption|exact R3|].
    eapply creads_app; [exact O5|exact R4|exact R5].
  - eapply common_back_intro; [exact C1|exact U5|right; exact X5].
  - split; [apply sorted_entries_same, Hmap|]. split; [apply sorted_entries_keys|]. repeat split.
Qed.
Lemma dictd_roundtrip v item d : common_typed item -> dict_typed d ->
  exists ps st' d', write_dictd v item d = Ok ps /\ (forall rest, next_item rest -> read_dictd (map Ok ps ++ rest) = Ok (st', d', rest)) /\
    common_back v [] item st' /\ same_entries (di_values d) (di_values d') /\ map fst (di_values d') = sort_keys (map fst (di_values d)) /\
    di_hard d' = false /\ di_dup d' = (if version_leb R2000 v then di_dup d else 0) /\ di_default d' = di_default d.
Proof.
  intros Hty (Hdup & Hdef & Hmap & Hh).
  set (a0 := (common_default, dict_default, @nil N) : store * dict * rstring).
  destruct (common_pre dictd_body dget dput dget_dput dput_dput dput_dget anystate v item a0) as (ps1 & st1 & E1 & O1 & R1 & C1);
    [intros c Hc; apply dictd_falls; cbn in *; tauto|intros; exact Logic.I|exact Logic.I|exact Hty|reflexivity|reflexivity|].
  change (dput a0 st1) with (st1, dict_default, @nil N) in R1.
  pose proof (falls_marker dictd_body dget dput anystate (st1, dict_default, []) (str "AcDbDictionary")
    (dictd_falls 100 ltac:(cbn; tauto)) Logic.I (dput_dget _)) as R2.
  set (d0 := mk_dict false (if version_leb R2000 v then di_dup d else 0) 0 []).
  set (d1 := mk_dict false (if version_leb R2000 v then di_dup d else 0) (di_default d) []).
  set (ps3 := (if version_leb R2000 v then [new_i16 281 (di_dup d)] else [])).
  assert (R3 : creads dictd_body ps3 (st1, dict_default, []) (st1, d0, [])).
  { unfold ps3, d0. destruct (version_leb R2000 v); [|apply creads_nil].
    apply creads_step; [discriminate|]. intros it. unfold dictd_body, assert_i16. cbn [new_i16 p_code p_value Z.eqb Pos.eqb bind].
    rewrite dup_id by exact Hdup. reflexivity. }
  assert (O3 : okhead ps3).
  { unfold ps3. destruct (version_leb R2000 v); cbn; try exact Logic.I; right; lia. }
  assert (R3' : creads dictd_body [new_str 340 (handle_as_string (di_default d))] (st1, d0, []) (st1, d1, [])).
  { apply creads_step; [discriminate|]. intros it. unfold dictd_body, as_handle, assert_string. cbn [new_str p_code p_value Z.eqb Pos.eqb bind].
    rewrite handle_roundtrip by (unfold is_u64; lia). reflexivity. }
  destruct (entries_read dictd_body 350) with (l := sorted_entries (di_values d)) (st := st1) (d := d1) (last := @nil N) as (last & O4 & R4).
  { discriminate. }
  { reflexivity. }
  { reflexivity. }
  { reflexivity. }
  { cbn [d1 di_values map app]. rewrite sorted_entries_keys. eapply Permutation_NoDup; [apply sort_permutation|exact Hmap]. }
  { apply Forall_forall. intros [k h] Hi. apply (sorted_entries_same _ Hmap) in Hi. rewrite Forall_forall in Hh. exact (Hh _ Hi). }
  cbn [d1 di_hard di_dup di_default di_values app] in R4.
  set (d' := mk_dict false (if version_leb R2000 v then di_dup d else 0) (di_default d) (sorted_entries (di_values d))).
  destruct (common_post dictd_body dget dput dget_dput dput_dput dput_dget anystate v item (st1, d', last)) as (st2 & O5 & R5 & U5 & X5);
    [apply dictd_falls; cbn; tauto|intros; exact Logic.I|exact Logic.I|exact Hty| |].
  { cbn [dget fst]. rewrite (proj2 (proj2 (proj2 C1))) by (cbn; intuition discriminate). reflexivity. }
  eexists. exists st2, d'. split; [|split; [|split]].
  - unfold write_dictd. rewrite E1. cbn [bind]. fold ps3. rewrite write_sorted. reflexivity.
  - intros rest Hrest. unfold read_dictd. rewrite (creads_loop dictd_body _ a0 (st2, d', last) rest); [reflexivity| |exact Hrest].
    eapply creads_app; [|exact R1|].
    { cbn. right. lia. }
    eapply creads_app; [|exact R2|].
    { apply okhead_app; [exact O3|]. cbn. right. lia. }
    eapply creads_app; [|exact R3|].
    { cbn. right. lia. }
    eapply creads_app; [apply okhead_app; assumption|exact R3'|].
    eapply creads_app; [exact O5|exact R4|exact R5].
  - eapply common_back_intro; [exact C1|exact U5|right; exact X5].
  - split; [apply sorted_entries_same, Hmap|]. split; [apply sorted_entries_keys|]. repeat split.
Qed.

(** * X-records *)
Definition xget (a : store * xrecord * bool) : store := fst (fst a).
Definition xput (a : store * xrecord * bool) (s : store) : store * xrecord * bool := (s, snd (fst a), snd a).
Lemma xput_xget a : xput a (xget a) = a.
Proof. destruct a as [[s d] l]. reflexivity. Qed.
Definition before_data (a : store * xrecord * bool) : Prop := snd a = false.
Lemma xrec_falls c : In c [5; 102; 330; 1001] -> falls xrec_body xget xput before_data c.
Proof.
  intros Hc p [[st x] data] it Hd Hp. unfold before_data in Hd. cbn [snd] in Hd. subst data. unfold xrec_body. rewrite Hp.
  destruct Hc as [<-|[<-|[<-|[<-|[]]]]]; reflexivity.
Qed.
Lemma xrec_data st dup : forall l pre, Forall (fun p => p_code p <> 0) l ->
  creads xrec_body l (st, mk_xrec dup pre, true) (st, mk_xrec dup (pre ++ l), true).
Proof.
  induction l as [|p l IH]; intros pre Hl; [rewrite app_nil_r; apply creads_nil|]. inversion_clear Hl as [|? ? Hp Hl'].
  intros rest fuel x Ho H. cbn [length map app]. rewrite Nat.add_succ_l. cbn [next_loop]. replace (p_code p =? 0) with false by lia.
  cbn [xrec_body bind xr_dup xr_pairs]. apply (IH (pre ++ [p]) Hl' rest fuel x Ho). rewrite <- app_assoc. exact H.
Qed.
Fixpoint xitem_nonzero (i : xitem) : Forall (fun p => p_code p <> 0) (write_xitem i).
Proof.
  destruct i; cbn [write_xitem]; unfold write_three; repeat constructor; try discriminate.
  cbn. apply Forall_app. split; [|repeat constructor; discriminate].
  induction items as [|i l IH]; cbn [flat_map]; [constructor|]. apply Forall_app. split; [apply xitem_nonzero|exact IH].
Qed.
Lemma oxdata_nonzero v item : Forall (fun p => p_code p <> 0) (write_oxdata v item).
Proof.
  unfold write_oxdata. induction (as_list (item "common.x_data")) as [|x l IH]; cbn [flat_map]; [constructor|]. apply Forall_app. split; [|exact IH].
  destruct x; try constructor. unfold write_xdata. destruct (version_leb R2000 v); [|constructor]. constructor; [discriminate|].
  induction (xd_items x) as [|i r IHr]; cbn [flat_map]; [constructor|]. apply Forall_app. split; [apply xitem_nonzero|exact IHr].
Qed.
Lemma xrec_roundtrip v item x : common_typed item -> Forall (fun p => p_code p <> 0) (xr_pairs x) ->
  exists ps st', write_xrec v item x = Ok ps /\
    (forall rest, next_item rest ->
      read_xrec (map Ok ps ++ rest) = Ok (st', mk_xrec 0 (new_i16 280 (xr_dup x) :: xr_pairs x ++ write_oxdata v item), rest)) /\
    common_back v ["common.x_data"] item st' /\ st' "common.x_data" = FList [].
Proof.
  intros Hty Hx. set (a0 := (common_default, mk_xrec 0 [], false) : store * xrecord * bool).
  destruct (common_pre xrec_body xget xput (fun _ _ => eq_refl) (fun _ _ _ => eq_refl) xput_xget before_data v item a0) as (ps1 & st1 & E1 & O1 & R1 & C1);
    [intros c Hc; apply xrec_falls; cbn in *; tauto|intros a s H; exact H|reflexivity|exact Hty|reflexivity|reflexivity|].
  change (xput a0 st1) with (st1, mk_xrec 0 [], false) in R1.
  eexists. exists st1. split; [|split; [|split]].
  - unfold write_xrec. rewrite E1. cbn [bind app]. reflexivity.
  - intros rest Hrest. unfold read_xrec.
    rewrite (creads_loop xrec_body _ a0 (st1, mk_xrec 0 ([] ++ (new_i16 280 (xr_dup x) :: xr_pairs x ++ write_oxdata v item)), true) rest); [reflexivity| |exact Hrest].
    eapply creads_app; [cbn; right; lia|exact R1|].
    eapply creads_cons; [discriminate|cbn; right; lia|intros it; reflexivity|].
    apply xrec_data. constructor; [discriminate|]. apply Forall_app. split; [exact Hx|apply oxdata_nonzero].
  - eapply common_back_intro; [exact C1|reflexivity|left; left; reflexivity].
  - rewrite (proj2 (proj2 (proj2 C1))) by (cbn; intuition discriminate). reflexivity.
Qed.

(** * Section settings *)
Lemma geo_back g rest : geo_loop (map Ok (write_geo g) ++ rest) geo_default = Ok (g, rest).
Proof. destruct g. reflexivity. Qed.
Lemma geo_all_step f it acc : (exists p r, it = Ok p :: r /\ p_code p = 90) ->
  geo_all (S f) it acc = (let? (g, r) := geo_loop it geo_default in geo_all f r (acc ++ [g])).
Proof. intros (p & r & -> & Hp). cbn [geo_all]. rewrite Hp. reflexivity. Qed.
Lemma geos_back p rest : p_code p = 3 -> forall l acc fuel, (length l < fuel)%nat ->
  geo_all fuel (map Ok (flat_map write_geo l) ++ Ok p :: rest) acc = Ok (acc ++ l, Ok p :: rest).
Proof.
  intros Hp. induction l as [|g l IH]; intros acc fuel Hf; (destruct fuel as [|f]; [cbn [length] in Hf; lia|]).
  - cbn [flat_map map app geo_all]. rewrite Hp, app_nil_r. reflexivity.
  - cbn [flat_map]. rewrite map_app, <- app_assoc. rewrite geo_all_step by (do 2 eexists; split; reflexivity).
    rewrite geo_back. cbn [bind]. rewrite IH by (cbn [length] in Hf; lia). rewrite <- app_assoc. reflexivity.
Qed.
Lemma ts_90 f x r a b c d e g : ts_loop (S f) (Ok (new_i32 90 x) :: r) (mk_ts a b c d e g) = ts_loop f r (mk_ts x b c d e g).
Proof. reflexivity. Qed.
Lemma ts_91 f (x : bool) r a b c d e g : ts_loop (S f) (Ok (new_i32 91 (if x then 1 else 0)) :: r) (mk_ts a b c d e g) = ts_loop f r (mk_ts a x c d e g).
Proof. destruct x; reflexivity. Qed.
Lemma ts_92 f x r t : ts_loop (S f) (Ok (new_i32 92 x) :: r) t = ts_loop f r t.
Proof. destruct t. reflexivity. Qed.
Lemma ts_93 f x r t : ts_loop (S f) (Ok (new_i32 93 x) :: r) t = ts_loop f r t.
Proof. destruct t. reflexivity. Qed.
Lemma ts_330 f h r a b c d e g : (h < 2 ^ 64)%N ->
  ts_loop (S f) (Ok (new_str 330 (handle_as_string h)) :: r) (mk_ts a b c d e g) = ts_loop f r (mk_ts a b (c ++ [h]) d e g).
Proof.
  intros Hh. change (ts_loop (S f) (Ok (new_str 330 (handle_as_string h)) :: r) (mk_ts a b c d e g)) with
    (let? h' := handle_of_string (handle_as_string h) 0 in ts_loop f r (mk_ts a b (c ++ [h']) d e g)).
  rewrite handle_roundtrip by (unfold is_u64; lia). reflexivity.
Qed.
Lemma ts_331 f h r a b c d e g : (h < 2 ^ 64)%N ->
  ts_loop (S f) (Ok (new_str 331 (handle_as_string h)) :: r) (mk_ts a b c d e g) = ts_loop f r (mk_ts a b c h e g).
Proof.
  intros Hh. change (ts_loop (S f) (Ok (new_str 331 (handle_as_string h)) :: r) (mk_ts a b c d e g)) with
    (let? h' := handle_of_string (handle_as_string h) 0 in ts_loop f r (mk_ts a b c h' e g)).
  rewrite handle_roundtrip by (unfold is_u64; lia). reflexivity.
Qed.
Lemma ts_1 f s r a b c d e g : ts_loop (S f) (Ok (new_str 1 s) :: r) (mk_ts a b c d e g) = ts_loop f r (mk_ts a b c d s g).
Proof. reflexivity. Qed.
Lemma ts_2 f s r a b c d e g : ts_loop (S f) (Ok (new_str 2 s) :: r) (mk_ts a b c d e g) =
  (let? (g', r') := geo_all (S (length r)) r g in ts_loop f r' (mk_ts a b c d e g')).
Proof. reflexivity. Qed.
Lemma ts_3 f s r t : ts_loop (S f) (Ok (new_str 3 s) :: r) t = ts_loop f r t.
Proof. destruct t. reflexivity. Qed.
Lemma sources_back a b d e g : forall l c fuel rest x, Forall (fun h => (h < 2 ^ 64)%N) l ->
  ts_loop fuel rest (mk_ts a b (c ++ l) d e g) = Ok x ->
  ts_loop (length l + fuel) (map Ok (map (fun h => new_str 330 (handle_as_string h)) l) ++ rest) (mk_ts a b c d e g) = Ok x.
Proof.
  induction l as [|h l IH]; intros c fuel rest x Hl H.
  - rewrite app_nil_r in H. exact H.
  - inversion_clear Hl as [|? ? Hh Hl']. cbn [length map app]. rewrite Nat.add_succ_l, ts_330 by exact Hh.
    apply IH; [exact Hl'|]. rewrite <- app_assoc. exact H.
Qed.
(** Where the loop over the pairs of type settings stops. *)
Definition ts_stops (rest : feed) : Prop := exists p r, rest = Ok p :: r /\
  ~ In (p_code p) [1; 2; 3; 90; 91; 92; 93; 330; 331].
Lemma ts_stop f rest t : ts_stops rest -> ts_loop (S f) rest t = Ok (t, rest).
Proof.
  intros (p & r & -> & Hp). destruct t. cbn [ts_loop]. destruct (p_code p =? 0) eqn:E0; [reflexivity|].
  cbn [In] in Hp. repeat match goal with |- context [p_code p =? ?z] => replace (p_code p =? z) with false by (symmetry; apply Z.eqb_neq; intros Hz; rewrite Hz in Hp; apply Hp; tauto) end.
  reflexivity.
Qed.
Lemma next_item_stops rest : next_item rest -> ts_stops rest.
Proof. intros (p & r & -> & Hp). exists p, r. split; [reflexivity|]. rewrite Hp. cbn. intuition discriminate. Qed.
Lemma ts_back t rest fuel : ts_typed t -> ts_stops rest -> (length (write_ts t) < fuel)%nat ->
  ts_loop fuel (map Ok (tl (write_ts t)) ++ rest) ts_default = Ok (t, rest).
Proof.
  intros (Hs & Hd) Hr Hf. destruct t as [a b c d e g]. cbn [ts_sources ts_destination ts_geometry] in *.
  unfold write_ts in *. cbn [app tl ts_type ts_generation ts_sources ts_destination ts_file ts_geometry] in *.
  cbn [length] in Hf. rewrite app_length, map_length in Hf. cbn [length] in Hf. rewrite app_length in Hf. cbn [length] in Hf.
  destruct fuel as [|[|[|fuel]]]; try lia. cbn [map app]. unfold ts_default. rewrite ts_90, ts_91, ts_92.
  rewrite !map_app, <- !app_assoc. replace fuel with (length c + (fuel - length c))%nat by lia. apply sources_back; [exact Hs|].
  destruct (fuel - length c)%nat as [|[|[|[|f]]]] eqn:Ef; try lia.
  cbn [map app]. rewrite ts_331 by exact Hd. rewrite ts_1, ts_93, ts_2.
  assert (Lg : (length g <= length (flat_map write_geo g))%nat).
  { clear. induction g as [|x g IH]; cbn [flat_map length]; [lia|]. rewrite app_length. cbn [write_geo length]. lia. }
  rewrite map_app, <- app_assoc. cbn [map app]. rewrite geos_back; [|reflexivity|rewrite app_length, map_length; lia].
  cbn [bind app]. destruct f as [|[|f]]; [lia|lia|]. rewrite ts_3. apply ts_stop, Hr.
Qed.
Definition sget (a : store * secsettings) : store := fst a.
Definition sput (a : store * secsettings) (s : store) : store * secsettings := (s, snd a).
Lemma sput_sget a : sput a (sget a) = a.
Proof. destruct a. reflexivity. Qed.
Lemma secs_falls fuel c : In c [5; 102; 330; 1001; 100] -> falls (secs_body fuel) sget sput anystate c.
Proof.
  intros Hc p [st x] it _ Hp. unfold secs_body. rewrite Hp. destruct Hc as [<-|[<-|[<-|[<-|[<-|[]]]]]]; reflexivity.
Qed.
Lemma next_loop_cons {A} (body : pair -> A -> feed -> res (A * feed)) f p it a : p_code p <> 0 ->
  next_loop body (S f) (Ok p :: it) a = (let? (a', r') := body p a it in next_loop body f r' a').
Proof. intros Hp. cbn [next_loop]. replace (p_code p =? 0) with false by lia. reflexivity. Qed.
Lemma next_loop_stop {A} (body : pair -> A -> feed -> res (A * feed)) f it a : next_item it -> next_loop body (S f) it a = Ok (a, it).
Proof. intros (p & r & -> & Hp). cbn [next_loop]. rewrite Hp. reflexivity. Qed.
Lemma ts_all_stop f it acc : next_item it -> ts_all (S f) it acc = Ok (acc, it).
Proof. intros (p & r & -> & Hp). cbn [ts_all]. rewrite Hp. reflexivity. Qed.
Lemma secs_start fuel st x t rest : ts_typed t -> next_item rest ->
  secs_body (S (S fuel)) (new_str 1 (str "SectionTypeSettings")) (st, mk_secs x []) (map Ok (tl (write_ts t)) ++ rest) = Ok (st, mk_secs x [t], rest).
Proof.
  intros Ht Hrest. assert (Lf : (1 <= length rest)%nat) by (destruct Hrest as (p & r & -> & _); cbn; lia).
  change (secs_body (S (S fuel)) (new_str 1 (str "SectionTypeSettings")) (st, mk_secs x []) (map Ok (tl (write_ts t)) ++ rest)) with
    (let? (l, it') := (let? (u, r) := ts_loop (S (length (map Ok (tl (write_ts t)) ++ rest))) (map Ok (tl (write_ts t)) ++ rest) ts_default in ts_all (S fuel) r ([] ++ [u]))
     in Ok (st, mk_secs x l, it')).
  rewrite ts_back; [|exact Ht|apply next_item_stops, Hrest|rewrite app_length, map_length; cbn [write_ts app tl length] in *; lia].
  cbn [bind]. rewrite ts_all_stop by exact Hrest. reflexivity.
Qed.
Lemma secs_roundtrip v item x rest : common_typed item -> Forall ts_typed (ss_settings x) -> (length (ss_settings x) <= 1)%nat ->
  ss_settings x = [] \/ write_oxdata v item = [] -> next_item rest ->
  exists ps st', write_secs v item x = Ok ps /\ read_secs (map Ok ps ++ rest) = Ok (st', x, rest) /\ common_back v [] item st'.
Proof.
  intros Hty Hts Hlen Hxd Hrest.
  set (a0 := (common_default, mk_secs 0 []) : store * secsettings).
  assert (Pre : forall fuel, exists ps1 st1, write_ocommon v item = Ok ps1 /\ okhead ps1 /\ creads (secs_body fuel) ps1 a0 (st1, mk_secs 0 []) /\ common_head v item st1 common_default).
  { intros fuel. destruct (common_pre (secs_body fuel) sget sput (fun _ _ => eq_refl) (fun _ _ _ => eq_refl) sput_sget anystate v item a0) as (ps1 & st1 & E1 & O1 & R1 & C1);
      [intros c Hc; apply secs_falls; cbn in *; tauto|intros; exact Logic.I|exact Logic.I|exact Hty|reflexivity|reflexivity|].
    exists ps1, st1. auto. }
  assert (Three : forall fuel st1 n, creads (secs_body fuel) [new_str 100 (str "AcDbSectionSettings"); new_i32 90 (ss_type x); new_i32 91 n]
    (st1, mk_secs 0 []) (st1, mk_secs (ss_type x) [])).
  { intros fuel st1 n. eapply creads_app with (ps := [new_str 100 (str "AcDbSectionSettings")]); [cbn; right; lia| |].
    - apply (falls_marker (secs_body fuel) sget sput anystate (st1, mk_secs 0 [])); [apply secs_falls; cbn; tauto|exact Logic.I|reflexivity].
    - eapply creads_cons; [discriminate|cbn; right; lia|intros it; reflexivity|]. apply creads_step; [discriminate|]. reflexivity. }
  destruct (ss_settings x) as [|t [|t2 l]] eqn:Es; [| |cbn [length] in Hlen; lia].
  - set (fuel := S (length (map Ok ((match write_ocommon v item with Ok c => c | _ => [] end) ++
      [new_str 100 (str "AcDbSectionSettings"); new_i32 90 (ss_type x); new_i32 91 (as_i32 (Z.of_nat 0))] ++ [] ++ write_oxdata v item) ++ rest))).
    destruct (Pre fuel) as (ps1 & st1 & E1 & O1 & R1 & C1).
    destruct (common_post (secs_body fuel) sget sput (fun _ _ => eq_refl) (fun _ _ _ => eq_refl) sput_sget anystate v item (st1, x)) as (st2 & O5 & R5 & U5 & X5);
      [apply secs_falls; cbn; tauto|intros; exact Logic.I|exact Logic.I|exact Hty| |].
    { cbn [sget fst]. rewrite (proj2 (proj2 (proj2 C1))) by (cbn; intuition discriminate). reflexivity. }
    eexists. exists st2. split; [|split].
    + unfold write_secs. rewrite E1, Es. cbn [bind flat_map]. reflexivity.
    + unfold read_secs, read_secs_fuel. unfold fuel in *. rewrite E1 in *.
      apply (creads_loop (secs_body _) _ a0 (st2, x) rest); [|exact Hrest].
      eapply creads_app; [cbn; right; lia|exact R1|]. eapply creads_app; [cbn [app]; exact O5|apply Three|].
      cbn [app]. replace (st1, mk_secs (ss_type x) []) with (st1, x) by (destruct x as [y z]; cbn in Es |- *; rewrite Es; reflexivity). exact R5.
    + eapply common_back_intro; [exact C1|exact U5|right; exact X5].
  - destruct Hxd as [Hxd|Hxd]; [discriminate Hxd|].
    set (ps := (match write_ocommon v item with Ok c => c | _ => [] end) ++
      [new_str 100 (str "AcDbSectionSettings"); new_i32 90 (ss_type x); new_i32 91 (as_i32 (Z.of_nat 1))] ++ (write_ts t ++ []) ++ write_oxdata v item).
    set (fuel := S (length (map Ok ps ++ rest))).
    destruct (Pre fuel) as (ps1 & st1 & E1 & O1 & R1 & C1).
    exists ps, st1. split; [|split].
    + unfold write_secs, ps. rewrite E1, Es. cbn [bind flat_map]. reflexivity.
    + unfold read_secs, read_secs_fuel. fold fuel.
      assert (Ht : ts_typed t) by (inversion Hts; assumption).
      assert (Rt : creads (secs_body fuel) [new_str 100 (str "AcDbSectionSettings"); new_i32 90 (ss_type x); new_i32 91 (as_i32 (Z.of_nat 1))]
        (st1, mk_secs 0 []) (st1, mk_secs (ss_type x) [])) by apply Three.
      assert (R : creads (secs_body fuel) (ps1 ++ [new_str 100 (str "AcDbSectionSettings"); new_i32 90 (ss_type x); new_i32 91 (as_i32 (Z.of_nat 1))]) a0 (st1, mk_secs (ss_type x) [])).
      { eapply creads_app; [cbn; right; lia|exact R1|exact Rt]. }
      unfold ps. rewrite E1, Hxd, !app_nil_r. rewrite app_assoc with (l := ps1), map_app, <- app_assoc.
      assert (Ho : outside_xdata (map Ok (write_ts t) ++ rest)) by (cbn; right; lia).
      assert (Lf : (1 <= length rest)%nat) by (destruct Hrest as (p & r & -> & _); cbn; lia).
      assert (Last : next_loop (secs_body fuel) 2 (map Ok (write_ts t) ++ rest) (st1, mk_secs (ss_type x) []) = Ok (st1, x, rest)).
      { change (map Ok (write_ts t) ++ rest) with (Ok (new_str 1 (str "SectionTypeSettings")) :: (map Ok (tl (write_ts t)) ++ rest)).
        rewrite next_loop_cons by discriminate.
        assert (Ef : exists f, fuel = S (S f)).
        { unfold fuel. rewrite app_length. destruct (length rest); [lia|]. rewrite Nat.add_succ_r. eexists. reflexivity. }
        destruct Ef as [f ->]. rewrite secs_start by assumption. cbn [bind].
        replace x with (mk_secs (ss_type x) [t]) at 2 by (rewrite <- Es; destruct x; reflexivity).
        apply next_loop_stop, Hrest. }
      pose proof (R (map Ok (write_ts t) ++ rest) 2%nat _ Ho Last) as Q.
      set (pre := ps1 ++ [new_str 100 (str "AcDbSectionSettings"); new_i32 90 (ss_type x); new_i32 91 (as_i32 (Z.of_nat 1))]) in *.
      assert (EF : ((length (write_ts t) + length rest - 1) + (length pre + 2))%nat = fuel).
      { unfold fuel, ps, pre. rewrite E1, Hxd, !app_nil_r, !app_length, map_length, !app_length. cbn [length]. lia. }
      apply (loop_more _ (length (write_ts t) + length rest - 1)) in Q. rewrite EF in Q. exact Q.
    + eapply common_back_intro; [exact C1|reflexivity|]. right. rewrite (proj2 (proj2 (proj2 C1))) by (cbn; intuition discriminate).
      change (common_default "common.x_data") with (FList []).
      destruct (common_typed_fields item Hty) as (_ & _ & _ & xs & _ & _ & _ & _ & _ & _ & Ex & Hx). unfold write_oxdata in Hxd. rewrite Ex in *. cbn [as_list] in Hxd.
      destruct (version_leb R2000 v) eqn:Hv; [|reflexivity]. destruct xs as [|y xs]; [reflexivity|]. inversion_clear Hx as [|? ? Hy _].
      destruct Hy as (d & -> & _). cbn [flat_map] in Hxd. unfold write_xdata in Hxd. rewrite Hv in Hxd. discriminate Hxd.
Qed.

(** Anything else after the settings is looked at again and again. *)
Lemma ts_all_stuck p r : ~ In (p_code p) [0; 1; 2; 3; 90; 91; 92; 93; 330; 331] -> forall fuel acc, ts_all fuel (Ok p :: r) acc = Err OutOfFuel.
Proof.
  intros Hp. assert (Hs : ts_stops (Ok p :: r)) by (exists p, r; split; [reflexivity|intros H; apply Hp; right; exact H]).
  induction fuel as [|f IH]; intros acc; [reflexivity|].
  change (ts_all (S f) (Ok p :: r) acc) with (if p_code p =? 0 then Ok (acc, Ok p :: r) else
    let? (t, r') := ts_loop (S (length (Ok p :: r))) (Ok p :: r) ts_default in ts_all f r' (acc ++ [t])).
  rewrite ts_stop by exact Hs. cbn [bind]. replace (p_code p =? 0) with false by (symmetry; apply Z.eqb_neq; intros Hz; apply Hp; left; congruence). apply IH.
Qed.
Lemma secs_stuck fuel st x acc t p r : ts_typed t -> ~ In (p_code p) [0; 1; 2; 3; 90; 91; 92; 93; 330; 331] ->
  secs_body fuel (new_str 1 (str "SectionTypeSettings")) (st, mk_secs x acc) (map Ok (tl (write_ts t)) ++ Ok p :: r) = Err OutOfFuel.
Proof.
  intros Ht Hp. destruct fuel as [|f]; [reflexivity|].
  change (secs_body (S f) (new_str 1 (str "SectionTypeSettings")) (st, mk_secs x acc) (map Ok (tl (write_ts t)) ++ Ok p :: r)) with
    (let? (l, it') := (let? (u, r) := ts_loop (S (length (map Ok (tl (write_ts t)) ++ Ok p :: r))) (map Ok (tl (write_ts t)) ++ Ok p :: r) ts_default in ts_all f r (acc ++ [u]))
     in Ok (st, mk_secs x l, it')).
  rewrite ts_back; [|exact Ht|exists p, r; split; [reflexivity|intros H; apply Hp; right; exact H]|rewrite app_length, map_length; cbn [write_ts app tl length] in *; lia].
  cbn [bind]. rewrite ts_all_stuck by exact Hp. reflexivity.
Qed.

(** * Table styles *)
Definition tget (a : store * list Z * list (list fval)) : store := fst (fst a).
Definition tput (a : store * list Z * list (list fval)) (s : store) : store * list Z * list (list fval) := (s, snd (fst a), snd a).
Lemma tput_tget a : tput a (tget a) = a.
Proof. destruct a as [[s d] l]. reflexivity. Qed.
Lemma tstyle_falls c : In c [5; 102; 330; 1001; 100] -> falls tstyle_body tget tput anystate c.
Proof.
  intros Hc p [[st x] cells] it _ Hp. unfold tstyle_body, common_apply, step. rewrite Hp.
  destruct Hc as [<-|[<-|[<-|[<-|[<-|[]]]]]].
  - change (find_arm (sp_arms (it_spec obj_table_style)) 5 x) with (Some [ASet "common.handle" RHandle]).
    change (find_arm ocommon_arms 5 []) with (Some [ASet "common.handle" RHandle]). cbn [acts act]. destruct (apply_r RHandle p); reflexivity.
  - change (find_arm (sp_arms (it_spec obj_table_style)) 102 x) with (Some [AExt "common.extension_data_groups"]).
    change (find_arm ocommon_arms 102 []) with (Some [AExt "common.extension_data_groups"]). cbn [acts act].
    destruct (assert_string p); [|reflexivity]. cbn [bind]. destruct (read_ext_group a it) as [[g r]|]; reflexivity.
  - change (find_arm (sp_arms (it_spec obj_table_style)) 330 x) with (Some [ASet "common.__owner_handle" RHandle]).
    change (find_arm ocommon_arms 330 []) with (Some [ASet "common.__owner_handle" RHandle]). cbn [acts act]. destruct (apply_r RHandle p); reflexivity.
  - change (find_arm (sp_arms (it_spec obj_table_style)) 1001 x) with (Some [AXdata "common.x_data"]).
    change (find_arm ocommon_arms 1001 []) with (Some [AXdata "common.x_data"]). cbn [acts act].
    destruct (assert_string p); [|reflexivity]. cbn [bind]. destruct (read_xdata a it) as [[g r]|]; reflexivity.
  - reflexivity.
Qed.
Lemma write_cmds_app v wh st l m : write_cmds v wh st (l ++ m) = (let? a := write_cmds v wh st l in let? b := write_cmds v wh st m in Ok (a ++ b)).
Proof.
  induction l as [|c l IH]; cbn [app write_cmds]; [destruct (write_cmds v wh st m); reflexivity|].
  destruct (write_cmd v wh st c); cbn [bind]; [|reflexivity]. rewrite IH. destruct (write_cmds v wh st l); cbn [bind]; [|reflexivity].
  destruct (write_cmds v wh st m); cbn [bind]; [|reflexivity]. rewrite app_assoc. reflexivity.
Qed.
Lemma tstyle_roundtrip v item : version_leb R2010 v = true -> well_typed obj_table_style item ->
  exists ps st', write_tstyle v item [] = Ok ps /\ (forall rest, next_item rest -> read_tstyle (map Ok ps ++ rest) = Ok (st', [], rest)) /\
    forall f, In f (it_fields obj_table_style) -> st' (f_name f) = item (f_name f).
Proof.
  intros Hv Hty.
  assert (Hc : common_typed item).
  { intros f Hf. apply (Hty f). unfold obj_table_style. cbn [it_fields]. apply in_or_app. right. exact Hf. }
  set (st0 := default_of (it_spec obj_table_style)). set (a0 := (st0, [0], []) : store * list Z * list (list fval)).
  destruct (common_pre tstyle_body tget tput (fun _ _ => eq_refl) (fun _ _ _ => eq_refl) tput_tget anystate v item a0) as (ps1 & st1 & E1 & O1 & R1 & C1);
    [intros c Hi; apply tstyle_falls; cbn in *; tauto|intros; exact Logic.I|exact Logic.I|exact Hc|reflexivity|reflexivity|].
  change (tput a0 st1) with (st1, [0], @nil (list fval)) in R1.
  unfold well_typed, obj_table_style in Hty. cbn [it_fields app] in Hty.
  destruct (Hty _ (or_introl eq_refl)) as ((ver & Ever & Hver) & Fver). 
  destruct (Hty _ (or_intror (or_introl eq_refl))) as ((des & Edes) & _).
  destruct (Hty _ (or_intror (or_intror (or_introl eq_refl)))) as ((flow & Eflow & Hflow) & _).
  destruct (Hty _ (or_intror (or_intror (or_intror (or_introl eq_refl))))) as ((flags & Eflags & Hflags) & Fflags).
  destruct (Hty _ (or_intror (or_intror (or_intror (or_intror (or_introl eq_refl)))))) as ((hm & Ehm & Hhm) & _).
  destruct (Hty _ (or_intror (or_intror (or_intror (or_intror (or_intror (or_introl eq_refl))))))) as ((vm & Evm & Hvm) & _).
  destruct (Hty _ (or_intror (or_intror (or_intror (or_intror (or_intror (or_intror (or_introl eq_refl)))))))) as ((bt & Ebt) & _).
  destruct (Hty _ (or_intror (or_intror (or_intror (or_intror (or_intror (or_intror (or_intror (or_introl eq_refl))))))))) as ((bc & Ebc) & _).
  cbn [f_name] in *. clear Hty.
  assert (Iver : as_i16 ver = ver) by (destruct Hver as [<-|[]]; reflexivity).
  assert (Iflow : as_i16 flow = flow) by (destruct Hflow as [<-|[<-|[]]]; reflexivity).
  assert (Iflags : as_i16 flags = flags).
  { inversion_clear Fflags as [|? ? H _]. cbn [f_kind f_codes fits] in H. rewrite Eflags in H. cbn in H. apply as_i16_id. unfold is_i16. change (-32768 <= flags <= 32767) in H. lia. }
  set (mid := [new_str 100 (str "AcDbTableStyle"); new_i16 280 ver; new_str 3 des; new_i16 70 flow; new_i16 71 flags; new_f64 40 hm; new_f64 41 vm;
               new_i16 280 (if bt then 1 else 0); new_i16 281 (if bc then 1 else 0)]).
  set (st2 := upd (upd (upd (upd (upd (upd (upd (upd st1 "version" (FInt ver)) "description" (FStr des)) "flow_direction" (FInt flow)) "flags" (FInt flags))
    "horizontal_cell_margin" (FF64 hm)) "vertical_cell_margin" (FF64 vm)) "is_title_suppressed" (FBool bt)) "is_column_heading_suppressed" (FBool bc)).
  assert (R2 : creads tstyle_body mid (st1, [0], []) (st2, [1], [])).
  { unfold mid, st2.
    eapply creads_cons; [discriminate|cbn; right; lia|intros it; reflexivity|].
    eapply creads_cons with (b := (upd st1 "version" (FInt ver), [1], [])); [discriminate|cbn; right; lia|intros it; destruct Hver as [<-|[]]; reflexivity|].
    eapply creads_cons; [discriminate|cbn; right; lia|intros it; reflexivity|].
    eapply creads_cons with (b := (upd (upd (upd st1 "version" (FInt ver)) "description" (FStr des)) "flow_direction" (FInt flow), [1], [])); [discriminate|cbn; right; lia|intros it; destruct Hflow as [<-|[<-|[]]]; reflexivity|].
    eapply creads_cons; [discriminate|cbn; right; lia|intros it; reflexivity|].
    eapply creads_cons; [discriminate|cbn; right; lia|intros it; reflexivity|].
    eapply creads_cons; [discriminate|cbn; right; lia|intros it; reflexivity|].
    eapply creads_cons with (b := (upd (upd (upd (upd (upd (upd (upd st1 "version" (FInt ver)) "description" (FStr des)) "flow_direction" (FInt flow)) "flags" (FInt flags))
    "horizontal_cell_margin" (FF64 hm)) "vertical_cell_margin" (FF64 vm)) "is_title_suppressed" (FBool bt), [1], [])); [discriminate|cbn; right; lia|intros it; destruct bt; reflexivity|].
    apply creads_step; [discriminate|]. intros it; destruct bc; reflexivity. }
  assert (K : forall u, In u ["common.handle"; "common.__owner_handle"; "common.extension_data_groups"; "common.x_data"] -> st2 u = st1 u).
  { intros u Hu. unfold st2. destruct Hu as [<-|[<-|[<-|[<-|[]]]]]; reflexivity. }
  destruct (common_post tstyle_body tget tput (fun _ _ => eq_refl) (fun _ _ _ => eq_refl) tput_tget anystate v item (st2, [1], [])) as (st3 & O5 & R5 & U5 & X5);
    [apply tstyle_falls; cbn; tauto|intros; exact Logic.I|exact Logic.I|exact Hc| |].
  { cbn [tget fst]. rewrite K by (cbn; tauto). rewrite (proj2 (proj2 (proj2 C1))) by (cbn; intuition discriminate). reflexivity. }
  exists (ps1 ++ mid ++ write_oxdata v item), st3. split; [|split].
  - unfold write_tstyle, write_item, obj_table_style. cbn [it_spec sp_cmds]. rewrite write_cmds_app. unfold write_ocommon in E1. rewrite E1. cbn [bind write_cmds].
    unfold write_cmd, all_hold. cbn [cmd_conds forallb andb write_body holds]. rewrite Hv, Ever, Edes, Eflow, Eflags, Ehm, Evm, Ebt, Ebc.
    unfold write_one. cbn [apply_w bind map_res app concat]. rewrite Iver, Iflow, Iflags. cbn [andb bind app]. rewrite <- app_assoc. reflexivity.
  - intros rest Hrest. unfold read_tstyle. fold st0. fold a0. rewrite (creads_loop tstyle_body _ a0 (st3, [1], []) rest); [reflexivity| |exact Hrest].
    eapply creads_app; [cbn; right; lia|exact R1|]. eapply creads_app; [exact O5|exact R2|exact R5].
  - assert (V : version_leb R14 v = true /\ version_leb R2000 v = true) by (revert Hv; unfold version_leb; cbn; lia).
    destruct C1 as (H1 & H2 & H3 & H4). rewrite (proj1 V) in H3. rewrite (proj2 V) in X5.
    intros f Hf. unfold obj_table_style in Hf. cbn [it_fields app] in Hf. cbn [tget fst] in U5.
    destruct Hf as [<-|[<-|[<-|[<-|[<-|[<-|[<-|[<-|Hf]]]]]]]]; cbn [f_name].
    1-8: rewrite U5 by discriminate; symmetry; assumption.
    unfold ocommon_fields in Hf. destruct Hf as [<-|[<-|[<-|[<-|[]]]]]; cbn [f_name].
    + rewrite U5 by discriminate. rewrite K by (cbn; tauto). exact H1.
    + rewrite U5 by discriminate. rewrite K by (cbn; tauto). exact H3.
    + exact X5.
    + rewrite U5 by discriminate. rewrite K by (cbn; tauto). exact H2.
Qed.

(** * Data tables *)
Definition shaped (d : dtable) : Prop :=
  length (dt_values d) = N.to_nat (dt_rows d) /\ Forall (fun r => length r = N.to_nat (dt_cols d)) (dt_values d).
Lemma replace_nth_some {A} (x : A) : forall l n, (n < length l)%nat -> exists l', replace_nth n x l = Some l' /\ length l' = length l /\
  forall P : A -> Prop, Forall P l -> P x -> Forall P l'.
Proof.
  induction l as [|y l IH]; intros n Hn; [cbn in Hn; lia|]. destruct n as [|n]; cbn [replace_nth].
  - exists (x :: l). split; [reflexivity|]. split; [reflexivity|]. intros P HP Hx. inversion_clear HP. constructor; assumption.
  - destruct (IH n) as (l' & -> & Hl & HP); [cbn in Hn; lia|]. exists (y :: l'). split; [reflexivity|]. split; [cbn; congruence|].
    intros P H Hx. inversion_clear H. constructor; [assumption|]. apply HP; assumption.
Qed.
Lemma set_value_ok row col x d : shaped d -> exists d', dt_set_value row col x d = Ok d' /\ shaped d' /\ same_but_values d d'.
Proof.
  intros [H1 H2]. unfold dt_set_value. destruct (row <? dt_rows d)%N eqn:E1; cbn [andb]; [|exists d; repeat split; assumption].
  destruct (col <? dt_cols d)%N eqn:E2; [|exists d; repeat split; assumption].
  destruct (nth_error (dt_values d) (N.to_nat row)) as [r|] eqn:En.
  2:{ apply nth_error_None in En. lia. }
  assert (Hr : length r = N.to_nat (dt_cols d)) by (rewrite Forall_forall in H2; apply H2; eapply nth_error_In; exact En).
  destruct (replace_nth_some (Some x) r (N.to_nat col)) as (r' & -> & Lr & _); [lia|].
  destruct (replace_nth_some r' (dt_values d) (N.to_nat row)) as (l' & -> & Ll & HP); [lia|].
  eexists. split; [reflexivity|]. split; [|repeat split]. split; cbn [dt_set_values dt_values dt_rows dt_cols]; [congruence|].
  apply HP; [exact H2|congruence].
Qed.
Definition tbl_get (a : store * dtable * dtlocals) : store := fst (fst a).
Definition tbl_put (a : store * dtable * dtlocals) (s : store) : store * dtable * dtlocals := (s, snd (fst a), snd a).
Lemma tbl_put_get a : tbl_put a (tbl_get a) = a.
Proof. destruct a as [[s d] l]. reflexivity. Qed.
Definition settled (a : store * dtable * dtlocals) : Prop :=
  dl_rows (snd a) = dl_cols (snd a) /\ dl_created (snd a) = dl_rows (snd a).
Definition at_start (a : store * dtable * dtlocals) : Prop := snd a = dtl0.
Lemma settled_no l : dl_rows l = dl_cols l -> dl_created l = dl_rows l -> dl_rows l && dl_cols l && negb (dl_created l) = false.
Proof. intros -> ->. destruct (dl_cols l); reflexivity. Qed.
Lemma dtable_falls c : In c [5; 102; 1001; 100] -> falls dtable_body tbl_get tbl_put settled c.
Proof.
  intros Hc p [[st d] l] it [S1 S2] Hp. cbn [snd] in *. unfold dtable_body, dtable_pair. rewrite Hp.
  destruct Hc as [<-|[<-|[<-|[<-|[]]]]]; cbn iota; cbv beta iota zeta delta [Z.eqb Pos.eqb orb]; cbn [tbl_get fst];
    destruct (common_apply p st it) as [[st' it']|]; cbn [bind]; try reflexivity; rewrite (settled_no l S1 S2); reflexivity.
Qed.
Lemma dtable_falls_start c : In c [5; 102; 330; 1001; 100] -> falls dtable_body tbl_get tbl_put at_start c.
Proof.
  intros Hc p [[st d] l] it H Hp. unfold at_start in H. cbn [snd] in H. subst l. unfold dtable_body, dtable_pair. rewrite Hp.
  destruct Hc as [<-|[<-|[<-|[<-|[<-|[]]]]]]; cbv beta iota zeta delta [Z.eqb Pos.eqb orb dtl0 dl_rows dl_cols]; cbn [tbl_get fst];
    destruct (common_apply p st it) as [[st' it']|]; reflexivity.
Qed.
(** Reading the cells of a column. *)
Definition ready (l : dtlocals) : Prop := dl_cols l = true /\ dl_rows l = true /\ dl_created l = true.
Lemma ready_no l : ready l -> dl_rows l && dl_cols l && negb (dl_created l) = false.
Proof. intros (-> & -> & ->). reflexivity. Qed.
Lemma cell_reads st x d l : shaped d -> ready l -> match x with Some (DHandle h) => (h < 2 ^ 64)%N | _ => True end ->
  exists d' l', okhead (write_dvalue x) /\ creads dtable_body (write_dvalue x) (st, d, l) (st, d', l') /\ shaped d' /\ same_but_values d d' /\ ready l'.
Proof.
  intros Hs Hl Hx. pose proof Hl as (L1 & L2 & L3).
  assert (One : forall p y, p_code p <> 0 -> (forall it, dtable_pair p st d l it = (let? d' := dt_set_value 0 (dl_column l) y d in Ok (st, d', l, it))) ->
    exists d' l', creads dtable_body [p] (st, d, l) (st, d', l') /\ shaped d' /\ same_but_values d d' /\ ready l').
  { intros p y Hp H. destruct (set_value_ok 0 (dl_column l) y d Hs) as (d' & E & S' & B'). exists d', l. split; [|auto].
    apply creads_step; [exact Hp|]. intros it. cbn [dtable_body]. rewrite H, E. cbn [bind]. rewrite (ready_no l Hl). reflexivity. }
  destruct x as [[b|z|dd|s|a b c|a b c|h]|]; cbn [write_dvalue].
  - destruct (One (new_i16 71 (if b then 1 else 0)) (DBool b)) as (d' & l' & R); [discriminate|intros it; destruct b; reflexivity|].
    exists d', l'. split; [cbn; right; lia|exact R].
  - destruct (One (new_i32 93 z) (DInt z)) as (d' & l' & R); [discriminate|reflexivity|]. exists d', l'. split; [cbn; right; lia|exact R].
  - destruct (One (new_f64 40 dd) (DDouble dd)) as (d' & l' & R); [discriminate|reflexivity|]. exists d', l'. split; [cbn; right; lia|exact R].
  - destruct (One (new_str 3 s) (DStr s)) as (d' & l' & R); [discriminate|reflexivity|]. exists d', l'. split; [cbn; right; lia|exact R].
  - destruct l as [c1 r1 k cr [[x1 y1] z1] p3]. cbn in L1, L2, L3. subst.
    destruct (set_value_ok 0 k (DPoint2 a b c) d Hs) as (d' & E & S' & B').
    exists d', (mk_dtl true true k true (0, 0, 0)%N p3). split; [cbn; right; lia|]. split; [|auto].
    eapply creads_cons; [discriminate|cbn; right; lia|intros it; reflexivity|].
    eapply creads_cons; [discriminate|cbn; right; lia|intros it; reflexivity|].
    apply creads_step; [discriminate|]. intros it. cbn [dtable_body]. unfold dtable_pair.
    cbv beta iota zeta delta [Z.eqb Pos.eqb orb p_code new_f64 assert_f64 p_value bind dl_p2 dl_set_p2 dl_column]. rewrite E. reflexivity.
  - destruct l as [c1 r1 k cr p2 [[x1 y1] z1]]. cbn in L1, L2, L3. subst.
    destruct (set_value_ok 0 k (DPoint3 a b c) d Hs) as (d' & E & S' & B').
    exists d', (mk_dtl true true k true p2 (0, 0, 0)%N). split; [cbn; right; lia|]. split; [|auto].
    eapply creads_cons; [discriminate|cbn; right; lia|intros it; reflexivity|].
    eapply creads_cons; [discriminate|cbn; right; lia|intros it; reflexivity|].
    apply creads_step; [discriminate|]. intros it. cbn [dtable_body]. unfold dtable_pair.
    cbv beta iota zeta delta [Z.eqb Pos.eqb orb p_code new_f64 assert_f64 p_value bind dl_p3 dl_set_p3 dl_column]. rewrite E. reflexivity.
  - destruct (One (new_str 331 (handle_as_string h)) (DHandle h)) as (d' & l' & R); [discriminate| |exists d', l'; split; [cbn; right; lia|exact R]].
    intros it. unfold dtable_pair. cbv beta iota zeta delta [Z.eqb Pos.eqb orb p_code new_str]. rewrite L1, L2. cbn [orb].
    unfold as_handle, assert_string. cbn [p_value bind]. rewrite handle_roundtrip by (unfold is_u64; lia). reflexivity.
  - exists d, l. split; [exact Logic.I|]. split; [apply creads_nil|]. split; [exact Hs|]. split; [repeat split|exact Hl].
Qed.
Lemma same_but_trans a b c : same_but_values a b -> same_but_values b c -> same_but_values a c.
Proof. intros (A1 & A2 & A3 & A4 & A5) (B1 & B2 & B3 & B4 & B5). repeat split; congruence. Qed.
Lemma cells_read st : forall xs d l, shaped d -> ready l -> Forall (fun x => match x with Some (DHandle h) => (h < 2 ^ 64)%N | _ => True end) xs ->
  exists d' l', okhead (flat_map write_dvalue xs) /\ creads dtable_body (flat_map write_dvalue xs) (st, d, l) (st, d', l') /\ shaped d' /\ same_but_values d d' /\ ready l'.
Proof.
  induction xs as [|x xs IH]; intros d l Hs Hl Hx.
  - exists d, l. split; [exact Logic.I|]. split; [apply creads_nil|]. split; [exact Hs|]. split; [repeat split|exact Hl].
  - inversion_clear Hx as [|? ? H1 H2]. destruct (cell_reads st x d l Hs Hl H1) as (d1 & l1 & O1 & R1 & S1 & B1 & Y1).
    destruct (IH d1 l1 S1 Y1 H2) as (d2 & l2 & O2 & R2 & S2 & B2 & Y2). exists d2, l2. cbn [flat_map].
    split; [apply okhead_app; assumption|]. split; [eapply creads_app; eassumption|]. split; [exact S2|]. split; [eapply same_but_trans; eassumption|exact Y2].
Qed.
Lemma map_res_ok {A B} (f : A -> res B) (P : B -> Prop) : forall l, (forall x, In x l -> exists y, f x = Ok y /\ P y) -> exists ys, map_res f l = Ok ys /\ Forall P ys.
Proof.
  induction l as [|x l IH]; intros H; [exists []; split; [reflexivity|constructor]|]. destruct (H x (or_introl eq_refl)) as (y & Ey & Py).
  destruct IH as (ys & Es & Ps); [intros z Hz; apply H; right; exact Hz|]. exists (y :: ys). cbn [map_res]. rewrite Ey. cbn [bind]. rewrite Es. split; [reflexivity|constructor; assumption].
Qed.
Lemma skipn_nth {A} (l : list A) k x : nth_error l k = Some x -> skipn k l = x :: skipn (S k) l.
Proof. revert k. induction l as [|y l IH]; intros [|k] H; cbn in *; try discriminate H; [injection H as ->; reflexivity|]. apply IH, H. Qed.
Definition same_but_names (d d' : dtable) : Prop := dt_field d' = dt_field d /\ dt_cols d' = dt_cols d /\ dt_rows d' = dt_rows d /\ dt_name d' = dt_name d.
Lemma columns_read st d : full_table d -> forall n k e l, (k + n = N.to_nat (dt_cols d))%nat -> shaped e -> ready l ->
  exists cs e' l', map_res (write_column d) (seq k n) = Ok cs /\ okhead (concat cs) /\ creads dtable_body (concat cs) (st, e, l) (st, e', l') /\ shaped e' /\
    same_but_names e e' /\ dt_names e' = dt_names e ++ skipn k (dt_names d) /\ ready l'.
Proof.
  intros (Hr & Hc & Hv & Hrow & Hn & Hh & Hfirst). induction n as [|n IH]; intros k e l Hk Hs Hl.
  - exists [], e, l. cbn [seq map_res concat]. split; [reflexivity|]. split; [exact Logic.I|]. split; [apply creads_nil|]. split; [exact Hs|]. split; [repeat split|].
    split; [|exact Hl]. rewrite skipn_all2 by lia. rewrite app_nil_r. reflexivity.
  - destruct (nth_error (dt_names d) k) as [nm|] eqn:Enm; [|apply nth_error_None in Enm; lia].
    destruct (nth_error (dt_values d) 0) as [r0|] eqn:Er0; [|apply nth_error_None in Er0; lia].
    assert (Cell : forall row, (row < N.to_nat (dt_rows d))%nat -> exists x, cell d row k = Ok x /\ match x with Some (DHandle h) => (h < 2 ^ 64)%N | _ => True end).
    { intros row Hrw. unfold cell, index. destruct (nth_error (dt_values d) row) as [r|] eqn:Er; [|apply nth_error_None in Er; lia]. cbn [bind].
      pose proof (nth_error_In _ _ Er) as Hin. rewrite Forall_forall in Hrow, Hh. specialize (Hrow r Hin). specialize (Hh r Hin).
      destruct (nth_error r k) as [x|] eqn:Ex; [|apply nth_error_None in Ex; lia]. exists x. split; [reflexivity|].
      rewrite Forall_forall in Hh. apply Hh. eapply nth_error_In; exact Ex. }
    assert (C0 : exists y, cell d 0 k = Ok (Some y)).
    { destruct (Cell 0%nat) as (x & Ex & _); [lia|]. destruct x as [y|]; [exists y; exact Ex|]. exfalso. unfold cell, index in Ex. rewrite Er0 in Ex. cbn [bind] in Ex.
      specialize (Hfirst r0 eq_refl). destruct (nth_error r0 k) as [z|] eqn:Ez; [|discriminate Ex]. injection Ex as ->.
      rewrite Forall_forall in Hfirst. exact (Hfirst None (nth_error_In _ _ Ez) eq_refl). }
    destruct C0 as [y Ey].
    destruct (map_res_ok (fun row => cell d row k) (fun x => match x with Some (DHandle h) => (h < 2 ^ 64)%N | _ => True end) (seq 0 (N.to_nat (dt_rows d)))) as (xs & Exs & Pxs).
    { intros row Hi. apply in_seq in Hi. apply Cell. lia. }
    assert (W : write_column d k = Ok (new_i32 92 (column_code y) :: new_str 2 nm :: flat_map write_dvalue xs)).
    { unfold write_column. rewrite Ey. cbn [bind]. unfold index. rewrite Enm. cbn [bind]. rewrite Exs. reflexivity. }
    set (l1 := mk_dtl (dl_cols l) (dl_rows l) (dl_column l + 1) (dl_created l) (dl_p2 l) (dl_p3 l)).
    assert (Y1 : ready l1) by exact Hl. set (e1 := dt_add_name nm e). assert (S1 : shaped e1) by exact Hs.
    destruct (cells_read st xs e1 l1 S1 Y1 Pxs) as (e2 & l2 & O2 & R2 & S2 & B2 & Y2).
    destruct (IH (S k) e2 l2) as (cs & e3 & l3 & Ecs & O3 & R3 & S3 & B3 & N3 & Y3); [lia|exact S2|exact Y2|].
    eexists. exists e3, l3. split; [cbn [seq map_res]; rewrite W; cbn [bind]; rewrite Ecs; reflexivity|].
    split; [cbn; right; lia|]. split; [|split; [exact S3|split; [|split; [|exact Y3]]]].
    + cbn [concat app]. eapply creads_cons with (b := (st, e, l1)); [discriminate|cbn; right; lia| |].
      { intros it. unfold dtable_body, dtable_pair. cbv beta iota zeta delta [Z.eqb Pos.eqb orb p_code new_i32 assert_i32 p_value bind]. fold l1. rewrite (ready_no l1 Y1). reflexivity. }
      eapply creads_cons with (b := (st, e1, l1)); [discriminate|apply okhead_app; assumption| |].
      { intros it. unfold dtable_body, dtable_pair. cbv beta iota zeta delta [Z.eqb Pos.eqb orb p_code new_str assert_string p_value bind]. rewrite (ready_no l1 Y1). reflexivity. }
      eapply creads_app; eassumption.
    + destruct B2 as (A1 & A2 & A3 & A4 & A5). destruct B3 as (D1 & D2 & D3 & D4). repeat split; cbn [e1 dt_add_name dt_field dt_cols dt_rows dt_name] in *; congruence.
    + rewrite N3, (proj2 (proj2 (proj2 (proj2 B2)))). cbn [e1 dt_add_name dt_names]. rewrite <- app_assoc. f_equal. symmetry. apply skipn_nth, Enm.
Qed.
Lemma dtable_roundtrip v item d : common_typed item -> full_table d ->
  exists ps st' d', write_dtable v item d = Ok ps /\ (forall rest, next_item rest -> read_dtable (map Ok ps ++ rest) = Ok (st', d', rest)) /\
    common_back v [] item st' /\ same_but_values d d' /\ shaped d'.
Proof.
  intros Hty Hfull. pose proof Hfull as (Hr & Hc & _ & _ & Hn & _).
  set (a0 := (common_default, dtable_default, dtl0) : store * dtable * dtlocals).
  destruct (common_pre dtable_body tbl_get tbl_put (fun _ _ => eq_refl) (fun _ _ _ => eq_refl) tbl_put_get at_start v item a0) as (ps1 & st1 & E1 & O1 & R1 & C1);
    [intros c Hi; apply dtable_falls_start; cbn in *; tauto|intros a s H; exact H|reflexivity|exact Hty|reflexivity|reflexivity|].
  change (tbl_put a0 st1) with (st1, dtable_default, dtl0) in R1.
  assert (Ic : as_i32 (Z.of_N (dt_cols d)) = Z.of_N (dt_cols d)) by (apply as_i32_id; unfold is_i32; lia).
  assert (Ir : as_i32 (Z.of_N (dt_rows d)) = Z.of_N (dt_rows d)) by (apply as_i32_id; unfold is_i32; lia).
  assert (Uc : as_usize (Z.of_N (dt_cols d)) = dt_cols d).
  { unfold as_usize. rewrite Z.mod_small by (change (2 ^ 64) with 18446744073709551616; lia). apply N2Z.id. }
  assert (Ur : as_usize (Z.of_N (dt_rows d)) = dt_rows d).
  { unfold as_usize. rewrite Z.mod_small by (change (2 ^ 64) with 18446744073709551616; lia). apply N2Z.id. }
  set (grid := repeat (repeat (@None dvalue) (N.to_nat (dt_cols d))) (N.to_nat (dt_rows d))).
  set (d1 := mk_dtable (dt_field d) (dt_cols d) (dt_rows d) (dt_name d) [] grid). set (l1 := mk_dtl true true 0 true (0, 0, 0)%N (0, 0, 0)%N).
  assert (R2 : creads dtable_body [new_str 100 (str "AcDbDataTable"); new_i16 70 (dt_field d); new_i32 90 (as_i32 (Z.of_N (dt_cols d)));
            new_i32 91 (as_i32 (Z.of_N (dt_rows d))); new_str 1 (dt_name d)] (st1, dtable_default, dtl0) (st1, d1, l1)).
  { rewrite Ic, Ir. eapply creads_cons; [discriminate|cbn; right; lia|intros it; reflexivity|].
    eapply creads_cons; [discriminate|cbn; right; lia|intros it; reflexivity|].
    eapply creads_cons with (b := (st1, mk_dtable (dt_field d) (dt_cols d) 0 [] [] [], mk_dtl true false 0 false (0, 0, 0)%N (0, 0, 0)%N));
      [discriminate|cbn; right; lia| |].
    { intros it. unfold dtable_body, dtable_pair. cbv beta iota zeta delta [Z.eqb Pos.eqb orb p_code new_i32 assert_i32 p_value bind]. rewrite Uc. reflexivity. }
    eapply creads_cons with (b := (st1, mk_dtable (dt_field d) (dt_cols d) (dt_rows d) [] [] grid, l1)); [discriminate|cbn; right; lia| |].
    { intros it. unfold dtable_body, dtable_pair. cbv beta iota zeta delta [Z.eqb Pos.eqb orb p_code new_i32 assert_i32 p_value bind]. rewrite Ur.
      cbn [dl_rows dl_cols dl_created andb negb]. unfold create_table, dt_set_rows. cbn [dt_rows dt_cols dt_field dt_name dt_names dt_values].
      change (2 ^ 63)%N with 9223372036854775808%N. replace (9223372036854775808 <=? dt_rows d)%N with false by lia.
      replace (9223372036854775808 <=? dt_cols d)%N with false by lia. rewrite andb_false_r. reflexivity. }
    apply creads_step; [discriminate|]. intros it. reflexivity. }
  assert (S1 : shaped d1).
  { split; cbn [d1 dt_values dt_rows dt_cols]; unfold grid; [apply repeat_length|]. apply Forall_forall. intros r Hi. apply repeat_spec in Hi. subst r. apply repeat_length. }
  destruct (columns_read st1 d Hfull (N.to_nat (dt_cols d)) 0 d1 l1 eq_refl S1 (conj eq_refl (conj eq_refl eq_refl))) as (cs & d2 & l2 & Ecs & O3 & R3 & S3 & B3 & N3 & Y3).
  destruct (common_post dtable_body tbl_get tbl_put (fun _ _ => eq_refl) (fun _ _ _ => eq_refl) tbl_put_get settled v item (st1, d2, l2)) as (st2 & O5 & R5 & U5 & X5);
    [apply dtable_falls; cbn; tauto|intros a s H; exact H|destruct Y3 as (Y1 & Y2 & Y4); split; cbn [snd]; congruence|exact Hty| |].
  { cbn [tbl_get fst]. rewrite (proj2 (proj2 (proj2 C1))) by (cbn; intuition discriminate). reflexivity. }
  eexists. exists st2, d2. split; [|split; [|split; [|split]]].
  - unfold write_dtable. rewrite E1. cbn [bind]. rewrite Ecs. reflexivity.
  - intros rest Hrest. unfold read_dtable. rewrite (creads_loop dtable_body _ a0 (st2, d2, l2) rest); [reflexivity| |exact Hrest].
    eapply creads_app; [cbn; right; lia|exact R1|]. eapply creads_app; [apply okhead_app; assumption|exact R2|].
    eapply creads_app; [exact O5|exact R3|exact R5].
  - eapply common_back_intro; [exact C1|exact U5|right; exact X5].
  - destruct B3 as (D1 & D2 & D3 & D4). cbn [d1 dt_field dt_cols dt_rows dt_name dt_names app skipn] in *. repeat split; congruence.
  - exact S3.
Qed.

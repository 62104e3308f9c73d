(** The vertices of lightweight polylines: reading by induction over the pairs, writing by induction over the vertices. *)
From Verif Require Import Base F64Model CodePairModel CodePairSpec CodePairProofs VersionModel StreamModel ExtDataModel BitsModel SpecModel SpecSpec SpecCheck SpecProofs DocSpec DrawingModel FileModel EntityData DocProofs ListSpec ListProofs VertexSpec.
Open Scope string_scope.
Open Scope list_scope.
Open Scope Z_scope.
Set Default Goal Selector "!".

Definition of_group (g : list pair) : fval := vertex_value (vertex_of g).
Lemma under_snoc c g p : under c (g ++ [p]) = under c g ++ (if p_code p =? c then [p_value p] else []).
Proof. rewrite under_app. unfold under at 2. cbn [filter]. destruct (p_code p =? c); reflexivity. Qed.
Lemma real_snoc c g p : real_in c (g ++ [p]) = if p_code p =? c then match p_value p with VDouble d => d | _ => 0%N end else real_in c g.
Proof. unfold real_in. rewrite under_snoc. destruct (p_code p =? c); [rewrite last_last|rewrite app_nil_r]; reflexivity. Qed.
Lemma whole_snoc c g p : whole_in c (g ++ [p]) = if p_code p =? c then match p_value p with VInt z => z | _ => 0 end else whole_in c g.
Proof. unfold whole_in. rewrite under_snoc. destruct (p_code p =? c); [rewrite last_last|rewrite app_nil_r]; reflexivity. Qed.

(** * Reading *)
Notation lw := (it_spec ent_lw_polyline).
Definition vertex_codes : list Z := [10; 20; 40; 41; 42; 91].
Definition others_keep : bool := forallb (fun a => existsb (Z.eqb (a_code a)) vertex_codes || forallb (fun x => negb (memb "vertices" (action_slots x))) (a_actions a)) (sp_arms lw).
Lemma lw_others : others_keep = true.
Proof. vm_compute. reflexivity. Qed.
Lemma lw_arm10 regs : find_arm (sp_arms lw) 10 regs = Some [ANewRec "vertices" [FF64 0; FF64 0; FF64 0; FF64 0; FF64 0; FInt 0] 0 RF64]. Proof. reflexivity. Qed.
Lemma lw_arm20 regs : find_arm (sp_arms lw) 20 regs = Some [ALast "vertices" 1 RF64]. Proof. reflexivity. Qed.
Lemma lw_arm40 regs : find_arm (sp_arms lw) 40 regs = Some [ALast "vertices" 2 RF64]. Proof. reflexivity. Qed.
Lemma lw_arm41 regs : find_arm (sp_arms lw) 41 regs = Some [ALast "vertices" 3 RF64]. Proof. reflexivity. Qed.
Lemma lw_arm42 regs : find_arm (sp_arms lw) 42 regs = Some [ALast "vertices" 4 RF64]. Proof. reflexivity. Qed.
Lemma lw_arm91 regs : find_arm (sp_arms lw) 91 regs = Some [ALast "vertices" 5 RI32]. Proof. reflexivity. Qed.
Lemma step_other p st regs it st' regs' it' : of_vertex p = false -> step (sp_arms lw) p st regs it = Ok (st', regs', it') -> st' "vertices" = st "vertices".
Proof.
  intros O H. unfold step in H. destruct (find_arm (sp_arms lw) (p_code p) regs) as [l|] eqn:F; [|injection H as <- _ _; reflexivity]. destruct (find_arm_In _ _ _ _ F) as (a & Hin & Ha & <-).
  pose proof lw_others as C. unfold others_keep in C. rewrite forallb_forall in C. specialize (C a Hin). rewrite Ha in C. change (existsb (Z.eqb (p_code p)) vertex_codes) with (of_vertex p) in C. rewrite O in C. cbn [orb] in C. exact (acts_keeps _ _ _ C _ _ _ _ _ _ H).
Qed.
Lemma step_begin p st regs it st' regs' it' l : p_code p = 10 -> st "vertices" = FList l -> step (sp_arms lw) p st regs it = Ok (st', regs', it') -> st' "vertices" = FList (l ++ [of_group [p]]).
Proof.
  intros E L H. unfold step in H. rewrite E, lw_arm10 in H. cbn [acts act apply_r] in H. unfold assert_f64 in H. destruct p as [c v]. cbn [p_code p_value] in *. subst c. destruct v; cbn [bind fst snd] in H; try discriminate H.
  injection H as <- _ _. unfold upd. change (String.eqb "vertices" "vertices") with true. cbn iota. rewrite L. reflexivity.
Qed.
Lemma set_last_group l g j x g' : FList (set_nth j x (as_list (of_group g))) = of_group g' -> set_last (FList (l ++ [of_group g])) j x = Ok (FList (l ++ [of_group g'])).
Proof. intros E. unfold set_last. cbn [as_list]. rewrite rev_app_distr. cbn [rev app]. rewrite E, rev_involutive. reflexivity. Qed.
Lemma step_last p st regs it st' regs' it' l g : of_vertex p = true -> p_code p <> 10 -> st "vertices" = FList (l ++ [of_group g]) -> step (sp_arms lw) p st regs it = Ok (st', regs', it') ->
  st' "vertices" = FList (l ++ [of_group (g ++ [p])]).
Proof.
  intros O N L H. assert (p_code p = 20 \/ p_code p = 40 \/ p_code p = 41 \/ p_code p = 42 \/ p_code p = 91) as K.
  { unfold of_vertex in O. cbn [existsb] in O. lia. }
  assert (forall c j, find_arm (sp_arms lw) c regs = Some [ALast "vertices" j RF64] -> p_code p = c -> (forall d, p_value p = VDouble d -> FList (set_nth j (FF64 d) (as_list (of_group g))) = of_group (g ++ [p])) -> st' "vertices" = FList (l ++ [of_group (g ++ [p])])) as Reals.
  { intros c j F E A. unfold step in H. rewrite E, F in H. cbn [acts act apply_r] in H. unfold assert_f64 in H. destruct (p_value p) as [| | | |d| |] eqn:V; cbn [bind fst snd] in H; try discriminate H.
    rewrite L, (set_last_group _ _ _ _ _ (A d eq_refl)) in H. cbn [bind fst snd] in H. injection H as <- _ _. unfold upd. change (String.eqb "vertices" "vertices") with true. reflexivity. }
  destruct K as [K|[K|[K|[K|K]]]].
  - apply (Reals _ _ (lw_arm20 regs) K). intros d V. unfold of_group, vertex_of. rewrite !real_snoc, whole_snoc, K, V. reflexivity.
  - apply (Reals _ _ (lw_arm40 regs) K). intros d V. unfold of_group, vertex_of. rewrite !real_snoc, whole_snoc, K, V. reflexivity.
  - apply (Reals _ _ (lw_arm41 regs) K). intros d V. unfold of_group, vertex_of. rewrite !real_snoc, whole_snoc, K, V. reflexivity.
  - apply (Reals _ _ (lw_arm42 regs) K). intros d V. unfold of_group, vertex_of. rewrite !real_snoc, whole_snoc, K, V. reflexivity.
  - unfold step in H. rewrite K, lw_arm91 in H. cbn [acts act apply_r] in H. unfold assert_i32 in H. destruct (p_value p) as [| |z| | | |] eqn:V; cbn [bind fst snd] in H; try discriminate H.
    assert (FList (set_nth 5 (FInt z) (as_list (of_group g))) = of_group (g ++ [p])) as A by (unfold of_group, vertex_of; rewrite !real_snoc, whole_snoc, K, V; reflexivity).
    rewrite L, (set_last_group _ _ _ _ _ A) in H. cbn [bind fst snd] in H. injection H as <- _ _. unfold upd. change (String.eqb "vertices" "vertices") with true. reflexivity.
Qed.
Lemma begins_cons p r : begins_vertex (p :: r) -> p_code p = 10 /\ Forall (fun q => p_code q <> 10) r.
Proof. intros (q & s & E & K). injection E as -> ->. exact K. Qed.
Lemma run_vertices eof nx rest : p_code nx = 0 -> forall ps fuel st regs st' regs' it', plain ps -> run (sp_arms lw) eof fuel (map Ok ps ++ Ok nx :: rest) st regs = Ok (st', regs', it') ->
  it' = Ok nx :: rest /\
  (forall l gs, filter of_vertex ps = concat gs -> Forall begins_vertex gs -> st "vertices" = FList l -> st' "vertices" = FList (l ++ map of_group gs)) /\
  (forall l g r gs, filter of_vertex ps = r ++ concat gs -> Forall (fun q => p_code q <> 10) r -> Forall begins_vertex gs -> st "vertices" = FList (l ++ [of_group g]) ->
    st' "vertices" = FList (l ++ map of_group ((g ++ r) :: gs))).
Proof.
  assert (groups_marked (sp_arms lw) = true) as G by reflexivity.
  intros Z. induction ps as [|p ps IH]; intros fuel st regs st' regs' it' P H; (destruct fuel as [|f]; cbn [run] in H; [discriminate H|]); cbn [map app] in H.
  - rewrite Z in H. change (0 =? 0) with true in H. cbn iota in H. injection H as <- _ <-. split; [reflexivity|]. cbn [filter]. split.
    + intros l gs E B L. destruct gs as [|g gs]; [rewrite app_nil_r; exact L|]. inversion B as [|? ? B1]; subst. destruct B1 as (q & s & -> & _). discriminate E.
    + intros l g r gs E _ B L. symmetry in E. apply app_eq_nil in E as [-> E]. destruct gs as [|h gs]; [rewrite app_nil_r; exact L|]. inversion B as [|? ? B1]; subst. destruct B1 as (q & s & -> & _). discriminate E.
  - inversion P as [|x l (P0 & P1 & P2) P4]; subst x l. destruct (p_code p =? 0) eqn:E0; [lia|].
    destruct (step (sp_arms lw) p st regs (map Ok ps ++ Ok nx :: rest)) as [[[st1 regs1] it1]|] eqn:E; cbn [bind fst snd] in H; [|discriminate H].
    pose proof (step_rest _ _ _ _ _ _ _ _ G P1 P2 E) as ->. destruct (IH _ _ _ _ _ _ P4 H) as (R1 & R2 & R3). split; [exact R1|]. cbn [filter]. destruct (of_vertex p) eqn:O.
    + assert (forall l gs, p :: filter of_vertex ps = concat gs -> Forall begins_vertex gs -> st "vertices" = FList l -> st' "vertices" = FList (l ++ map of_group gs)) as New.
      { intros l gs F B L. destruct gs as [|g gs]; [discriminate F|]. inversion B as [|? ? B1 B2]; subst. destruct g as [|q r]; [destruct B1 as (? & ? & B1 & _); discriminate B1|].
        cbn [concat app] in F. injection F as <- F. apply begins_cons in B1 as [B1 B3]. pose proof (step_begin _ _ _ _ _ _ _ _ B1 L E) as L1. exact (R3 l [p] r gs F B3 B2 L1). }
      split; [exact New|]. intros l g r gs F N B L. destruct r as [|q r].
      * cbn [app] in F. rewrite app_nil_r. cbn [map]. change (of_group g :: map of_group gs) with ([of_group g] ++ map of_group gs). rewrite app_assoc. exact (New _ gs F B L).
      * cbn [app] in F. injection F as <- F. inversion N as [|? ? N1 N2]; subst. pose proof (step_last _ _ _ _ _ _ _ _ _ O N1 L E) as L1. rewrite (R3 l (g ++ [p]) r gs F N2 B L1), <- app_assoc. reflexivity.
    + pose proof (step_other _ _ _ _ _ _ _ O E) as K. split.
      * intros l gs F B L. rewrite <- K in L. exact (R2 l gs F B L).
      * intros l g r gs F N B L. rewrite <- K in L. exact (R3 l g r gs F N B L).
Qed.
Lemma lw_read ps gs nx rest o r : plain ps -> p_code nx = 0 -> vertices_of ps gs ->
  read_entity (Ok (mk_pair 0 (VStr (str "LWPOLYLINE"))) :: map Ok ps ++ Ok nx :: rest) = Ok (o, r) ->
  r = Ok nx :: rest /\ exists st, o = Some (ent_lw_polyline, st) /\ st "vertices" = FList (map (fun g => vertex_value (vertex_of g)) gs).
Proof.
  intros P Z (F & B) H. unfold read_entity in H. set (fu := length _) in H. clearbody fu. cbn [read_entity_fuel p_code p_value assert_string bind] in H. change (0 =? 0) with true in H. cbn iota in H.
  assert (seqb (str "LWPOLYLINE") (str "ENDSEC") || seqb (str "LWPOLYLINE") (str "ENDBLK") = false) as E1 by reflexivity. assert (seqb (str "LWPOLYLINE") (str "DIMENSION") = false) as E2 by reflexivity.
  assert (from_type_string (str "LWPOLYLINE") = Some ent_lw_polyline) as E3 by reflexivity. rewrite E1, E2, E3 in H.
  destruct (read_item lw (map Ok ps ++ Ok nx :: rest)) as [[y q]|] eqn:R; cbn [bind] in H; [|discriminate H]. unfold read_item in R. destruct (run _ _ _ _ _ _) as [[[st1 regs1] it1]|] eqn:E; cbn [bind] in R; [|discriminate R].
  assert (sp_created lw = []) as Cr by reflexivity. rewrite Cr in R. cbn [forallb] in R. injection R as <- <-. destruct (run_vertices _ _ _ Z _ _ _ _ _ _ _ P E) as (R1 & R2 & _). injection H as <- <-. split; [exact R1|].
  eexists. split; [reflexivity|]. exact (R2 [] gs F B eq_refl).
Qed.

Lemma lw_not_begun p ps nx rest : In (p_code p) [20; 40; 41; 42; 91] -> plain (p :: ps) -> p_code nx = 0 -> forall x,
  read_entity (Ok (mk_pair 0 (VStr (str "LWPOLYLINE"))) :: map Ok (p :: ps) ++ Ok nx :: rest) <> Ok x.
Proof.
  intros I P Z x H. unfold read_entity in H. set (fu := length _) in H. clearbody fu. cbn [read_entity_fuel p_code p_value assert_string bind] in H. change (0 =? 0) with true in H. cbn iota in H.
  assert (seqb (str "LWPOLYLINE") (str "ENDSEC") || seqb (str "LWPOLYLINE") (str "ENDBLK") = false) as E1 by reflexivity. assert (seqb (str "LWPOLYLINE") (str "DIMENSION") = false) as E2 by reflexivity.
  assert (from_type_string (str "LWPOLYLINE") = Some ent_lw_polyline) as E3 by reflexivity. rewrite E1, E2, E3 in H.
  destruct (read_item lw (map Ok (p :: ps) ++ Ok nx :: rest)) as [[y q]|] eqn:R; cbn [bind] in H; [|discriminate H]. unfold read_item in R. destruct (run _ _ _ _ _ _) as [[[st1 regs1] it1]|] eqn:E; cbn [bind] in R; [|discriminate R].
  clear - I E. cbn [run map app] in E. destruct (p_code p =? 0) eqn:E0; [cbn [In] in I; lia|]. destruct (step _ _ _ _ _) as [z|] eqn:S in E; cbn [bind] in E; [|discriminate E]. clear E.
  unfold step in S. cbn [In] in I. destruct I as [I|[I|[I|[I|[I|[]]]]]]; rewrite <- I in S; rewrite ?lw_arm20, ?lw_arm40, ?lw_arm41, ?lw_arm42, ?lw_arm91 in S; cbn [acts act] in S;
    (destruct (apply_r _ p); cbn [bind] in S; [|discriminate S]); discriminate S.
Qed.

(** * Writing *)
Lemma not_of_vertex ps : Forall (fun c => under c ps = []) vertex_codes -> filter of_vertex ps = [].
Proof.
  intros H. destruct (filter of_vertex ps) as [|p l] eqn:F; [reflexivity|]. assert (In p (filter of_vertex ps)) as I by (rewrite F; left; reflexivity). apply filter_In in I as [I O].
  unfold of_vertex in O. apply existsb_exists in O as (c & Hc & E). rewrite Forall_forall in H. specialize (H c Hc). exfalso. assert (In (p_value p) (under c ps)) as J by (apply in_map, filter_In; split; [exact I|lia]). rewrite H in J. exact J.
Qed.
Definition vertex_silent (c : cmd) : bool := forallb (fun z => silent entity_groups z c) vertex_codes.
Lemma vertex_silents v wh st : no_groups entity_groups st -> forall l ps, forallb vertex_silent l = true -> write_cmds v wh st l = Ok ps -> filter of_vertex ps = [].
Proof.
  intros G. induction l as [|c l IH]; intros ps F H; cbn [write_cmds forallb] in *; [injection H as <-; reflexivity|]. apply andb_true_iff in F as [F1 F2].
  destruct (write_cmd v wh st c) as [a|] eqn:E; cbn [bind] in H; [|discriminate H]. destruct (write_cmds v wh st l) as [b|]; cbn [bind] in H; [|discriminate H]. injection H as <-.
  rewrite filter_app, (IH b F2 eq_refl), app_nil_r. apply not_of_vertex, Forall_forall. intros z Hz. unfold vertex_silent in F1. rewrite forallb_forall in F1. exact (silent_sound _ _ _ _ _ _ _ (F1 z Hz) G E).
Qed.
Definition vertex_body : list part := [mk_part [] 10 0 WF64; mk_part [] 20 1 WF64; mk_part [RcMin R2013] 91 5 WI32; mk_part [RcNe 2 (FF64 0)] 40 2 WF64; mk_part [RcNe 3 (FF64 0)] 41 3 WF64; mk_part [RcNe 4 (FF64 0)] 42 4 WF64].
Lemma lw_cmds : exists a b, sp_cmds lw = a ++ WEachRec [] "vertices" vertex_body :: b /\ forallb vertex_silent a = true /\ forallb vertex_silent b = true.
Proof. exists (firstn 26 (sp_cmds lw)), (skipn 27 (sp_cmds lw)). split; [reflexivity|]. split; vm_compute; reflexivity. Qed.
Lemma write_cmds_app v wh st a : forall b ps, write_cmds v wh st (a ++ b) = Ok ps -> exists pa pb, write_cmds v wh st a = Ok pa /\ write_cmds v wh st b = Ok pb /\ ps = pa ++ pb.
Proof.
  induction a as [|c a IH]; intros b ps H; cbn [app write_cmds] in H |- *; [exists [], ps; repeat split; exact H|]. destruct (write_cmd v wh st c) as [x|]; cbn [bind] in H |- *; [|discriminate H].
  destruct (write_cmds v wh st (a ++ b)) as [y|] eqn:E; cbn [bind] in H; [|discriminate H]. injection H as <-. destruct (IH b y E) as (pa & pb & -> & -> & ->). exists (x ++ pa), pb. cbn [bind]. rewrite app_assoc. repeat split.
Qed.
Lemma no_difference d : f64_ne d 0 = false -> (d mod 2 ^ 63 = 0)%N.
Proof.
  unfold f64_ne. intros H. apply orb_false_iff in H as [_ H]. apply negb_false_iff, orb_true_iff in H as [H|H]; [apply N.eqb_eq in H as ->; reflexivity|]. apply andb_true_iff in H as [H _]. unfold f64_zero in H. apply N.eqb_eq in H. exact H.
Qed.
Lemma vertex_written v w g : is_i32 (ve_id w) = true -> write_parts v vertex_body (as_list (vertex_value w)) = Ok g -> begins_vertex g /\ Forall (fun p => of_vertex p = true) g /\ stands_for v g w.
Proof.
  intros I W. unfold vertex_body, vertex_value in W. cbn [as_list write_parts bind pt_conds pt_code pt_conv pt_comp forallb rholds nth andb differs] in W. unfold write_one in W. cbn [apply_w bind] in W. rewrite (as_i32_id _ I) in W.
  rewrite !andb_true_r in W. unfold stands_for, real_in, whole_in, same_or_zero.
  destruct (f64_ne (ve_start w) 0) eqn:E1, (f64_ne (ve_end w) 0) eqn:E2, (f64_ne (ve_bulge w) 0) eqn:E3, (version_leb R2013 v) eqn:Ev; cbn [bind] in W; injection W as <-;
    try apply no_difference in E1; try apply no_difference in E2; try apply no_difference in E3;
    (split; [eexists _, _; split; [reflexivity|split; [reflexivity|repeat constructor; cbn [p_code]; lia]]|]); (split; [repeat constructor|]); cbn; auto 10.
Qed.
Lemma vertices_written v : forall ws gs, Forall (fun w => is_i32 (ve_id w) = true) ws -> map_res (fun el => write_parts v vertex_body (as_list el)) (map vertex_value ws) = Ok gs ->
  filter of_vertex (concat gs) = concat gs /\ Forall begins_vertex gs /\ Forall2 (stands_for v) gs ws.
Proof.
  induction ws as [|w ws IH]; intros gs I H; cbn [map map_res] in H; [injection H as <-; repeat split; constructor|]. inversion I as [|? ? I1 I2]; subst.
  destruct (write_parts v vertex_body (as_list (vertex_value w))) as [g|] eqn:E; cbn [bind] in H; [|discriminate H]. destruct (map_res _ _) as [l|] eqn:M; cbn [bind] in H; [|discriminate H]. injection H as <-.
  destruct (vertex_written _ _ _ I1 E) as (B & O & S). destruct (IH l I2 eq_refl) as (J1 & J2 & J3). cbn [concat]. rewrite filter_app, J1. split; [|split; constructor; assumption]. f_equal.
  clear - O. induction O as [|p g Hp O IH]; [reflexivity|]. cbn [filter]. rewrite Hp, IH. reflexivity.
Qed.
Lemma lw_write v e ws ps : entity_type (en_specific e) = "LwPolyline" -> version_leb R14 v = true -> no_groups entity_groups (entity_store e) ->
  entity_store e "vertices" = FList (map vertex_value ws) -> Forall (fun w => is_i32 (ve_id w) = true) ws -> FileModel.write_entity v true e = Ok ps ->
  exists own gs, ps = mk_pair 0 (VStr (str "LWPOLYLINE")) :: own /\ vertices_of own gs /\ Forall2 (stands_for v) gs ws.
Proof.
  intros K V G L I H.
  assert (write_typed ent_lw_polyline v true (entity_store e) (Ok []) = Ok ps) as W.
  { assert (type_named entities "LwPolyline" = Some ent_lw_polyline) as T by reflexivity. assert (has_mtext "LwPolyline" = false) as M by reflexivity.
    unfold FileModel.write_entity in H. cbv zeta in H. destruct (en_specific e) as [q l|q l|x|n x|n x|n] eqn:Es; cbn [entity_type] in K, H; try discriminate K; rewrite K, T, M in H; exact H. }
  unfold write_typed in W. assert (type_since lw R14 = true) as Since by reflexivity. rewrite (since_supported _ _ _ Since V) in W. destruct (write_item _ _ _ _) as [own|] eqn:J; cbn [bind] in W; [|discriminate W]. injection W as <-.
  unfold write_item in J. destruct lw_cmds as (a & b & C & Ca & Cb). rewrite C in J. destruct (write_cmds_app _ _ _ _ _ _ J) as (pa & pc & Wa & Wc & ->). cbn [write_cmds] in Wc.
  destruct (write_cmd _ _ _ (WEachRec _ _ _)) as [x|] eqn:Wx; cbn [bind] in Wc; [|discriminate Wc]. destruct (write_cmds _ _ _ b) as [pb|] eqn:Wb; cbn [bind] in Wc; [|discriminate Wc]. injection Wc as <-.
  unfold write_cmd in Wx. cbn [cmd_conds all_hold forallb write_body] in Wx. rewrite L in Wx. cbn [as_list] in Wx. destruct (map_res _ _) as [gs|] eqn:M; cbn [bind] in Wx; [|discriminate Wx]. injection Wx as <-.
  destruct (vertices_written _ _ _ I M) as (F & B & S). exists (pa ++ concat gs ++ pb), gs. rewrite app_nil_r. split; [reflexivity|]. split; [|exact S]. split; [|exact B].
  rewrite !filter_app, (vertex_silents _ _ _ G _ _ Ca Wa), (vertex_silents _ _ _ G _ _ Cb Wb), F, app_nil_r. reflexivity.
Qed.

(** Binary data: the pieces are kept in their order. *)
From Verif Require Import Base F64Model CodePairModel CodePairSpec CodePairProofs VersionModel StreamModel ExtDataModel BitsModel SpecModel SpecSpec SpecCheck SpecProofs DocSpec DrawingModel FileModel EntityData ObjectData DocProofs ListSpec ListProofs PieceSpec.
Open Scope string_scope.
Open Scope list_scope.
Open Scope Z_scope.
Set Default Goal Selector "!".

Lemma pieces_cons p ps : pieces (p :: ps) = (if p_code p =? 310 then match p_value p with VBin b => [b] | _ => [] end else []) ++ pieces ps.
Proof. unfold pieces. rewrite under_cons, flat_map_app. f_equal. destruct (p_code p =? 310); [|reflexivity]. cbn [flat_map]. apply app_nil_r. Qed.
Definition adds (arms : list arm) (s : string) : bool :=
  match first_arm arms 310 with
  | Some a => match a_guards a, a_actions a with [], [APush t RBin] => String.eqb t s | _, _ => false end
  | None => false
  end && forallb (fun a => (a_code a =? 310) || forallb (fun x => negb (memb s (action_slots x))) (a_actions a)) arms.
Lemma step_adds arms s p st regs it st' regs' it' : adds arms s = true -> step arms p st regs it = Ok (st', regs', it') ->
  if p_code p =? 310 then exists b, p_value p = VBin b /\ st' s = push (st s) (FBin b) else st' s = st s.
Proof.
  unfold adds. intros C H. apply andb_true_iff in C as [C1 C2]. unfold step in H. destruct (p_code p =? 310) eqn:E.
  - assert (p_code p = 310) as E' by lia. rewrite E' in H. destruct (first_arm arms 310) as [a|] eqn:F; [|discriminate C1]. destruct (a_guards a) eqn:G; [|discriminate C1]. destruct (a_actions a) as [|[] []] eqn:A; try discriminate C1; destruct r; try discriminate C1.
    apply String.eqb_eq in C1 as ->. rewrite (first_found _ _ _ regs F G), A in H. cbn [acts act apply_r] in H. unfold assert_binary in H. destruct (p_value p) as [| | | | | |b]; cbn [bind fst snd] in H; try discriminate H. injection H as <- _ _.
    exists b. split; [reflexivity|]. unfold upd. rewrite String.eqb_refl. reflexivity.
  - destruct (find_arm arms (p_code p) regs) as [l|] eqn:F; [|injection H as <- _ _; reflexivity]. destruct (find_arm_In _ _ _ _ F) as (a & Hin & Ha & <-).
    rewrite forallb_forall in C2. specialize (C2 a Hin). rewrite Ha, E in C2. cbn [orb] in C2. exact (acts_keeps _ _ _ C2 _ _ _ _ _ _ H).
Qed.
Lemma run_adds arms s eof nx rest : groups_marked arms = true -> adds arms s = true -> p_code nx = 0 -> forall ps fuel st regs st' regs' it' l, plain ps -> st s = FList (map FBin l) ->
  run arms eof fuel (map Ok ps ++ Ok nx :: rest) st regs = Ok (st', regs', it') -> it' = Ok nx :: rest /\ st' s = FList (map FBin (l ++ pieces ps)).
Proof.
  intros G C Z. induction ps as [|p ps IH]; intros fuel st regs st' regs' it' l P L H; (destruct fuel as [|f]; cbn [run] in H; [discriminate H|]); cbn [map app] in H.
  - rewrite Z in H. change (0 =? 0) with true in H. cbn iota in H. injection H as <- _ <-. split; [reflexivity|]. unfold pieces. cbn [under filter map flat_map]. rewrite app_nil_r. exact L.
  - inversion P as [|x y (P0 & P1 & P2) P4]; subst x y. destruct (p_code p =? 0) eqn:E0; [lia|].
    destruct (step arms p st regs (map Ok ps ++ Ok nx :: rest)) as [[[st1 regs1] it1]|] eqn:E; cbn [bind fst snd] in H; [|discriminate H].
    pose proof (step_rest _ _ _ _ _ _ _ _ G P1 P2 E) as ->. pose proof (step_adds _ _ _ _ _ _ _ _ _ C E) as Q. rewrite pieces_cons. destruct (p_code p =? 310).
    + destruct Q as (b & Vb & Q). rewrite Vb. assert (st1 s = FList (map FBin (l ++ [b]))) as Q' by (rewrite Q, L, map_app; reflexivity). destruct (IH _ _ _ _ _ _ _ P4 Q' H) as [R1 R2]. split; [exact R1|]. rewrite R2, <- app_assoc. reflexivity.
    + rewrite L in Q. exact (IH _ _ _ _ _ _ _ P4 Q H).
Qed.
Definition keeps_pieces (sp : spec) (s : string) : bool := groups_marked (sp_arms sp) && adds (sp_arms sp) s && list_default sp s && forallb (fun x => negb (memb s (final_slots x))) (sp_finals sp).
Lemma item_pieces sp s ps nx rest st r : keeps_pieces sp s = true -> plain ps -> p_code nx = 0 -> read_item sp (map Ok ps ++ Ok nx :: rest) = Ok (Some st, r) -> r = Ok nx :: rest /\ holds_pieces st s (pieces ps).
Proof.
  intros C P Z H. unfold keeps_pieces in C. apply andb_true_iff in C as [C C4]. apply andb_true_iff in C as [C C3]. apply andb_true_iff in C as [C1 C2]. unfold read_item in H. destruct (run _ _ _ _ _ _) as [[[st1 regs1] it1]|] eqn:E; cbn [bind] in H; [|discriminate H].
  destruct (run_adds _ _ _ _ _ C1 C2 Z _ _ _ _ _ _ _ [] P (list_default_sound _ _ C3) E) as [R1 R2]. cbv beta iota in H. match type of H with context [if ?b then _ else _] => destruct b end; [|discriminate H]. injection H as <- <-. split; [exact R1|]. unfold holds_pieces. rewrite (finals_keep _ _ C4). exact R2.
Qed.
Lemma entity_pieces_read : forallb (fun t => keeps_pieces (it_spec t) (piece_field (sp_type (it_spec t)))) entities = true.
Proof. vm_compute. reflexivity. Qed.

Fixpoint piece_cmds (groups : list string) (l : list cmd) : option (list string) :=
  match l with
  | [] => Some []
  | c :: r =>
      match piece_cmds groups r with
      | Some fs => if silent groups 310 c then Some fs else match c with WEach cs k f WBin => if (k =? 310) && since_only R2000 cs then Some (f :: fs) else None | _ => None end
      | None => None
      end
  end.
Lemma each_piece l : forall qs, map_res (write_one 310 WBin) (map FBin l) = Ok qs -> under 310 qs = map VBin l.
Proof.
  induction l as [|b l IH]; intros qs H; cbn [map map_res] in H; [injection H as <-; reflexivity|]. unfold write_one at 1 in H. cbn [apply_w bind] in H. destruct (map_res _ _) as [x|]; cbn [bind] in H; [|discriminate H]. injection H as <-. rewrite under_cons. cbn [p_code p_value]. change (310 =? 310) with true. cbn [app map]. rewrite (IH x eq_refl). reflexivity.
Qed.
Lemma piece_cmds_sound groups v st data : version_leb R2000 v = true -> no_groups groups st -> forall l fs ps, piece_cmds groups l = Some fs -> (forall f, In f fs -> holds_pieces st f (data f)) -> write_cmds v true st l = Ok ps ->
  under 310 ps = map VBin (flat_map data fs).
Proof.
  intros V G. induction l as [|c l IH]; intros fs ps C D H; cbn [piece_cmds write_cmds] in *; [injection C as <-; injection H as <-; reflexivity|].
  destruct (write_cmd v true st c) as [a|] eqn:E; cbn [bind] in H; [|discriminate H]. destruct (write_cmds v true st l) as [b|]; cbn [bind] in H; [|discriminate H]. injection H as <-. rewrite under_app. destruct (piece_cmds groups l) as [gs|]; [|discriminate C]. destruct (silent groups 310 c) eqn:S.
  - injection C as <-. rewrite (silent_sound _ _ _ _ _ _ _ S G E). exact (IH gs b eq_refl D eq_refl).
  - destruct c as [| | |cs k f w| | | | |]; try discriminate C. destruct w; try discriminate C. destruct (k =? 310) eqn:K; [|discriminate C]. cbn [andb] in C. destruct (since_only R2000 cs) eqn:O; [|discriminate C]. injection C as <-. assert (k = 310) as -> by lia.
    unfold write_cmd in E. cbn [cmd_conds] in E. rewrite (since_holds _ _ _ _ _ O V) in E. cbn [write_body] in E. rewrite (D f (or_introl eq_refl)) in E. cbn [as_list] in E. rewrite (each_piece _ _ E). cbn [flat_map]. rewrite map_app. f_equal. refine (IH gs b eq_refl _ eq_refl). intros g Hg. exact (D g (or_intror Hg)).
Qed.
Definition same_fields (o : option (list string)) (l : list string) : bool := match o with Some fs => if list_eq_dec String.string_dec fs l then true else false | None => false end.
Lemma same_fields_eq o l : same_fields o l = true -> o = Some l.
Proof. unfold same_fields. destruct o as [fs|]; [|discriminate]. destruct (list_eq_dec _ _ _) as [->|]; [reflexivity|discriminate]. Qed.
Lemma entity_pieces_written : forallb (fun t => same_fields (piece_cmds entity_groups (sp_cmds (it_spec t))) (piece_fields (sp_type (it_spec t)))) entities = true.
Proof. vm_compute. reflexivity. Qed.
Lemma typed_pieces t fs data v st p ps : piece_cmds entity_groups (sp_cmds (it_spec t)) = Some fs -> version_leb R2000 v = true -> no_groups entity_groups st -> (forall f, In f fs -> holds_pieces st f (data f)) -> write_typed t v true st (Ok []) = Ok (p :: ps) ->
  under 310 ps = map VBin (flat_map data fs).
Proof.
  intros C V G D W. unfold write_typed in W. destruct (supported _ _); [|discriminate W]. destruct (write_item _ _ _ _) as [own|] eqn:E; cbn [bind] in W; [|discriminate W]. injection W as <- <-. rewrite app_nil_r. exact (piece_cmds_sound _ _ _ _ V G _ _ _ C D E).
Qed.
Definition object_piece_ok (e : string * string) : bool :=
  forallb (fun t => negb (seqb (sp_type (it_spec t)) (str (fst e))) || keeps_pieces (it_spec t) (snd e) && same_fields (piece_cmds entity_groups (sp_cmds (it_spec t))) [snd e]) objects.
Lemma object_pieces_ok : forallb object_piece_ok object_pieces = true.
Proof. vm_compute. reflexivity. Qed.
Lemma object_piece ty f t : In (ty, f) object_pieces -> In t objects -> sp_type (it_spec t) = str ty -> keeps_pieces (it_spec t) f = true /\ piece_cmds entity_groups (sp_cmds (it_spec t)) = Some [f].
Proof.
  intros K Ht E. pose proof (proj1 (forallb_forall _ _) object_pieces_ok _ K) as C. unfold object_piece_ok in C. rewrite forallb_forall in C. specialize (C t Ht). cbn [fst snd] in C. rewrite E, seqb_refl in C. cbn [negb orb] in C. apply andb_true_iff in C as [C1 C2]. split; [exact C1|exact (same_fields_eq _ _ C2)].
Qed.
(** The project of macros: the pieces are joined. *)
Lemma project_ok : groups_marked (sp_arms (it_spec obj_vba_project)) && adds (sp_arms (it_spec obj_vba_project)) "__hex_data" && list_default (it_spec obj_vba_project) "__hex_data" = true.
Proof. vm_compute. reflexivity. Qed.
Lemma joined l : flat_map (fun x => match x with FBin b => b | _ => [] end) (map FBin l) = concat l.
Proof. induction l as [|b l IH]; [reflexivity|]. cbn [map flat_map concat]. rewrite IH. reflexivity. Qed.
Lemma project_joined ps nx rest st r : plain ps -> p_code nx = 0 -> read_item (it_spec obj_vba_project) (map Ok ps ++ Ok nx :: rest) = Ok (Some st, r) -> r = Ok nx :: rest /\ st "data" = FList (map (fun b => FInt (Z.of_N b)) (concat (pieces ps))).
Proof.
  intros P Z H. pose proof project_ok as C. apply andb_true_iff in C as [C C3]. apply andb_true_iff in C as [C1 C2]. unfold read_item in H. destruct (run _ _ _ _ _ _) as [[[st1 regs1] it1]|] eqn:E; cbn [bind] in H; [|discriminate H].
  destruct (run_adds _ _ _ _ _ C1 C2 Z _ _ _ _ _ _ _ [] P (list_default_sound _ _ C3) E) as [R1 R2]. cbv beta iota in H. match type of H with context [if ?b then _ else _] => destruct b end; [|discriminate H]. injection H as <- <-. split; [exact R1|].
  change (sp_finals (it_spec obj_vba_project)) with [PFlatten "__hex_data" "data"]. cbn [fold_left finish]. cbv zeta. rewrite R2. cbn [as_list app]. rewrite joined. reflexivity.
Qed.

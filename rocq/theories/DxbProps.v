(** C40: DXB files. *)
From Verif Require Import Base CodePairModel SpecModel SpecSpec SpecCheck SpecProofs SpecWitness EntityData SectionData HeaderModel HeaderData HeaderProps DrawingModel DrawingSpec DrawingProofs
  FileModel FileSpec ReturnProofs FileProofs SaveModel F64Spec F32Model F32Spec F32SpecProofs DxbModel DxbSpec DxbProofs.
Open Scope string_scope.
Open Scope list_scope.
Open Scope N_scope.
Set Default Goal Selector "!".

Lemma is_dxb d enc bs : save_dxb d = dxb_line ++ [13; 10] ++ bs -> after_dxb_line enc (save_dxb d) = Some bs.
Proof. intros ->. unfold after_dxb_line. destruct enc; reflexivity. Qed.

(** The entities a DXB file can hold come back in their order, with their layers and colours and with their numbers in single precision. Missing from the
    full claim: drawings that also have blocks (C40_with_block_refuted), the heights of flat entities (C40_height_refuted), layer names beyond Latin-1
    (C40_layer_refuted). *)
Theorem C40_entities_partial : forall env enc d, dr_blocks d = [] -> Forall dxb_storable (dr_entities d) ->
  exists d', load_bytes env enc (save_dxb d) = Ok d' /\ dr_blocks d' = [] /\ Forall2 returned (filter in_dxb (dr_entities d)) (dr_entities d').
Proof.
  intros env enc d Hb H. destruct (load_flat env d Hb H) as (bs & S & d' & L & B & es & E & R). exists d'. split.
  - unfold load_bytes. rewrite (is_dxb d enc bs S). exact L.
  - split; [rewrite B; reflexivity|]. rewrite E. exact R.
Qed.
Print Assumptions C40_entities_partial.

(** Numbers that are singles come back exactly. *)
Lemma single_field st st' s : to_single st st' s -> single_number st s -> st' s = st s.
Proof. intros (x & y & E1 & E2 & S) (x' & E & F & G). rewrite E1 in E. injection E as <-. rewrite E1, E2, (single_stays x y S F G). reflexivity. Qed.
Theorem C40_singles_exact_partial : forall env enc d, dr_blocks d = [] -> Forall dxb_storable (dr_entities d) -> Forall single_numbers (dr_entities d) ->
  exists d', load_bytes env enc (save_dxb d) = Ok d' /\ Forall2 same_numbers (filter in_dxb (dr_entities d)) (dr_entities d').
Proof.
  intros env enc d Hb H S. destruct (C40_entities_partial env enc d Hb H) as (d' & L & _ & R). exists d'. split; [exact L|].
  assert (S' : Forall single_numbers (filter in_dxb (dr_entities d))) by (apply Forall_forall; intros e He; apply filter_In in He as [He _]; rewrite Forall_forall in S; exact (S e He)).
  clear - R S'. revert S'. induction R as [|e e' l l' (_ & _ & _ & N & P) _ IH]; intros S'; [constructor|]. inversion_clear S' as [|? ? [S1 S2] S3]. constructor; [|apply IH, S3]. split.
  - intros ns Hn. destruct (N ns Hn) as [N1 _]. specialize (S1 ns Hn). rewrite Forall_forall in *. intros s Hs. exact (single_field _ _ s (N1 s Hs) (S1 s Hs)).
  - intros T. destruct (P T) as [_ V]. clear - V S2. revert S2. induction V as [|v v' l l' (V1 & V2 & _) _ IH]; intros S2; [constructor|]. inversion_clear S2 as [|? ? [A B] S3]. constructor; [|apply IH, S3].
    split; apply single_field; assumption.
Qed.
Print Assumptions C40_singles_exact_partial.

(** ** A case *)
Definition the_entity (t : itype) (l : list (string * fval)) (children : list (list (string * fval) * N)) : entity := entity_of (t, item_with t l) children default_mtext.
Definition the_vertex (x : N) (b : N) : list (string * fval) * N :=
  (child_of (ent_vertex, item_with ent_vertex [("location.x", FF64 x); ("location.y", FF64 x); ("bulge", FF64 b)]) default_mtext, 0).
Definition the_drawing (es : list entity) (bs : list block) : drawing := set_blocks bs (set_entities es (start env0)).
Definition one_and_a_half : N := 0x3FF8000000000000.
Definition dxb_case : drawing :=
  the_drawing
    [the_entity ent_arc [("common.layer", FStr (str "WALLS")); ("common.color", FInt 3); ("center.x", FF64 one_and_a_half); ("radius", FF64 one64); ("end_angle", FF64 one64)] [];
     the_entity ent_text [("value", FStr (str "not in a DXB file"))] [];
     the_entity ent_polyline [("common.layer", FStr (str "WALLS")); ("flags", FInt 1)] [the_vertex one64 0; the_vertex one_and_a_half 0];
     the_entity ent_line [("p2.z", FF64 0x3FB999999999999A)] []] [].
Definition doubleb (st : store) (s : string) : bool := match st s with FF64 x => x <? 2 ^ 64 | _ => false end.
Definition dxb_storableb (e : entity) : bool :=
  match en_specific e with EOther n | EDimStyled n _ | ETextStyled n _ => negb (memb n ["Insert"; "InsertWithAttributes"; "Polyline"]) | _ => true end &&
  forallb (fun c => (1 <=? c) && (c <? 256)) (en_layer e) && match entity_store e "common.color" with FInt z => (-32768 <=? z)%Z && (z <? 32768)%Z | _ => false end &&
  match numbers_of e with Some l => forallb (doubleb (entity_store e)) l | None => true end &&
  forallb (fun v => doubleb (of_fields v) "location.x" && doubleb (of_fields v) "location.y") (vertices_of e).
Lemma doubleb_sound st s : doubleb st s = true -> has_double st s.
Proof. unfold doubleb, has_double. destruct (st s); try discriminate. intros H. eexists. split; [reflexivity|]. apply N.ltb_lt, H. Qed.
Lemma dxb_storableb_sound e : dxb_storableb e = true -> dxb_storable e.
Proof.
  unfold dxb_storableb. intros H. repeat (apply andb_true_iff in H as [H ?]). split; [|split; [|split; [|split]]].
  - assert (M : forall n l, negb (memb n l) = true -> ~ In n l) by (intros n l M X; apply memb_In in X; rewrite X in M; discriminate M).
    destruct (en_specific e); cbn [proper]; auto.
  - unfold dxb_layer. apply Forall_forall. intros c Hc. rewrite forallb_forall in H3. specialize (H3 c Hc). cbv beta in H3. lia.
  - unfold dxb_color. destruct (entity_store e "common.color"); try discriminate H2. eexists. split; [reflexivity|]. lia.
  - intros l L. rewrite L in H1. apply Forall_forall. intros s Hs. rewrite forallb_forall in H1. apply doubleb_sound, H1, Hs.
  - apply Forall_forall. intros v Hv. rewrite forallb_forall in H0. specialize (H0 v Hv). apply andb_true_iff in H0 as [A B]. split; apply doubleb_sound; assumption.
Qed.
Example C40_entities_case : dr_blocks dxb_case = [] /\ Forall dxb_storable (dr_entities dxb_case) /\ map in_dxb (dr_entities dxb_case) = [true; false; true; true].
Proof.
  split; [reflexivity|]. split; [|vm_compute; reflexivity]. apply Forall_forall. intros e He. apply dxb_storableb_sound.
  assert (K : forallb dxb_storableb (dr_entities dxb_case) = true) by (vm_compute; reflexivity). rewrite forallb_forall in K. exact (K e He).
Qed.
Definition singles_case : drawing := the_drawing [the_entity ent_circle [("center.x", FF64 one_and_a_half); ("radius", FF64 one64)] []] [].
Example C40_singles_case : dr_blocks singles_case = [] /\ Forall dxb_storable (dr_entities singles_case) /\ Forall single_numbers (dr_entities singles_case) /\ dr_entities singles_case <> [].
Proof.
  split; [reflexivity|]. split; [|split; [|discriminate]].
  - apply Forall_forall. intros e He. apply dxb_storableb_sound. assert (K : forallb dxb_storableb (dr_entities singles_case) = true) by (vm_compute; reflexivity). rewrite forallb_forall in K. exact (K e He).
  - constructor; [|constructor]. split; [|constructor]. intros l L. vm_compute in L. injection L as <-. repeat constructor.
    + exists one_and_a_half. split; [vm_compute; reflexivity|]. split; [split; [reflexivity|vm_compute; discriminate]|]. exists 3%Z, (-1)%Z. split; [vm_compute; reflexivity|]. split; [split; discriminate|vm_compute; reflexivity].
    + exists 0. split; [vm_compute; reflexivity|]. split; [split; [reflexivity|vm_compute; discriminate]|]. exists 0%Z, 0%Z. split; [vm_compute; reflexivity|]. split; [split; discriminate|vm_compute; reflexivity].
    + exists one64. split; [vm_compute; reflexivity|]. split; [split; [reflexivity|vm_compute; discriminate]|]. exists 1%Z, 0%Z. split; [vm_compute; reflexivity|]. split; [split; discriminate|vm_compute; reflexivity].
Qed.

(** ** What a DXB file loses *)

(** With a block whose base point has the ordinate 0 in the drawing, none of the entities comes back, of the block only an empty one: the base point is
    written as singles but read as 16-bit integers, so its last bytes are read as the end of the file. *)
Theorem C40_with_block_refuted : forall env enc d b bs, dr_entities d <> [] -> dr_blocks d = b :: bs -> block_store b "base_point.y" = FF64 0 ->
  exists d' b', load_bytes env enc (save_dxb d) = Ok d' /\ dr_entities d' = [] /\ dr_blocks d' = [b'] /\ bl_entities b' = [].
Proof.
  intros env enc d b bs He Hb Hy.
  assert (S : exists x0 x1 x2 x3 r, save_dxb d = dxb_line ++ [13; 10] ++ [26; 0; 132; x0; x1; x2; x3; 0; 0; 0; 0] ++ r).
  { unfold save_dxb. rewrite Hb, Hy. destruct (dr_entities d); [contradiction He; reflexivity|]. unfold write_n at 1. cbn [le_bytes]. do 5 eexists. reflexivity. }
  destruct S as (x0 & x1 & x2 & x3 & r & S).
  assert (L : exists p, load_dxb env ([26; 0; 132; x0; x1; x2; x3; 0; 0; 0; 0] ++ r) = Ok (add_block (block_at p []) (start env))) by (eexists; reflexivity).
  destruct L as [p L]. destruct (add_block_spec (block_at p []) (start env)) as (b' & d1 & P & _ & _ & _ & _ & F & (R1 & R2 & R3 & R4 & R5) & _).
  eexists. exists b'. split; [|split; [|split]].
  - unfold load_bytes. rewrite (is_dxb d enc _ S), L, P. reflexivity.
  - replace (dr_entities (set_blocks (dr_blocks (start env) ++ [b']) d1)) with (dr_entities d1) by (destruct d1; reflexivity). first [rewrite R1|rewrite R3|rewrite R4|rewrite R5]; reflexivity.
  - destruct d1. reflexivity.
  - change (bl_entities (block_at p [])) with (@nil entity) in F. inversion F. reflexivity.
Qed.
Print Assumptions C40_with_block_refuted.
(** A drawing without entities is saved as an empty one, whatever its blocks. *)
Theorem C40_blocks_alone_refuted : forall env enc d, dr_entities d = [] -> load_bytes env enc (save_dxb d) = Ok (start env).
Proof.
  intros env enc d H. assert (S : save_dxb d = dxb_line ++ [13; 10] ++ [26; 0; 135; 1; 0; 136; 0; 0; 0]) by (unfold save_dxb; rewrite H; reflexivity).
  unfold load_bytes. rewrite (is_dxb d enc _ S). vm_compute. reflexivity.
Qed.
Print Assumptions C40_blocks_alone_refuted.
Definition a_block : block := block_of (item_with block_head [("name", FStr (str "B"))]) [the_entity ent_circle [] []].
Example C40_block_cases : dr_entities (the_drawing [the_entity ent_line [] []] [a_block]) <> [] /\ block_store a_block "base_point.y" = FF64 0 /\ dr_entities (the_drawing [] [a_block]) = [].
Proof. split; [discriminate|]. split; [vm_compute; reflexivity|reflexivity]. Qed.

(** Checking the only entity that comes back. *)
Definition back_as (e : entity) (b : entity -> bool) : bool :=
  match load_bytes env0 WINDOWS_1252 (save_dxb (the_drawing [e] [])) with Ok d' => match dr_entities d' with [e'] => b e' | _ => false end | Err _ => false end.
Lemma back_as_sound e b : back_as e b = true -> exists d' e', load_bytes env0 WINDOWS_1252 (save_dxb (the_drawing [e] [])) = Ok d' /\ dr_entities d' = [e'] /\ b e' = true.
Proof.
  unfold back_as. destruct (load_bytes env0 WINDOWS_1252 (save_dxb (the_drawing [e] []))) as [d'|]; [|discriminate]. destruct (dr_entities d') as [|e' [|]] eqn:E; try discriminate. intros H. exists d', e'. auto.
Qed.
Definition double_is (st : store) (s : string) (x : N) : bool := match st s with FF64 y => y =? x | _ => false end.
Lemma double_is_sound st s x : double_is st s x = true -> st s = FF64 x.
Proof. unfold double_is. destruct (st s); try discriminate. intros H. apply N.eqb_eq in H. rewrite H. reflexivity. Qed.
(** A circle above the plane comes back in it. *)
Theorem C40_height_refuted : exists e d' e', dxb_storable e /\ entity_store e "center.z" = FF64 one64 /\
  load_bytes env0 WINDOWS_1252 (save_dxb (the_drawing [e] [])) = Ok d' /\ dr_entities d' = [e'] /\ entity_store e' "center.z" = FF64 0.
Proof.
  set (e := the_entity ent_circle [("center.z", FF64 one64); ("radius", FF64 one64)] []). exists e.
  assert (B : back_as e (fun e' => double_is (entity_store e') "center.z" 0) = true) by (vm_compute; reflexivity). apply back_as_sound in B as (d' & e' & L & E & B). exists d', e'.
  split; [apply dxb_storableb_sound; vm_compute; reflexivity|]. split; [vm_compute; reflexivity|]. split; [exact L|]. split; [exact E|]. apply double_is_sound, B.
Qed.
Print Assumptions C40_height_refuted.
(** A polyline with an arc comes back with a straight side. *)
Definition bulges (e : entity) : list fval := map (fun v => of_fields v "bulge") (vertices_of e).
Theorem C40_bulge_refuted : exists e d' e', dxb_storable e /\ bulges e = [FF64 one64; FF64 0] /\
  load_bytes env0 WINDOWS_1252 (save_dxb (the_drawing [e] [])) = Ok d' /\ dr_entities d' = [e'] /\ bulges e' = [FF64 0; FF64 0].
Proof.
  set (e := the_entity ent_polyline [] [the_vertex one64 one64; the_vertex one_and_a_half 0]). exists e.
  assert (B : back_as e (fun e' => match bulges e' with [FF64 0; FF64 0] => true | _ => false end) = true) by (vm_compute; reflexivity). apply back_as_sound in B as (d' & e' & L & E & B). exists d', e'.
  split; [apply dxb_storableb_sound; vm_compute; reflexivity|]. split; [vm_compute; reflexivity|]. split; [exact L|]. split; [exact E|].
  destruct (bulges e') as [|x [|y [|z l]]]; try discriminate B; destruct x as [| |[|]| | | | | |]; try discriminate B; destruct y as [| |[|]| | | | | |]; try discriminate B. reflexivity.
Qed.
Print Assumptions C40_bulge_refuted.
(** Characters beyond U+00FF are cut to a byte: the layer named U+0141 comes back as "A". *)
Theorem C40_layer_refuted : exists e d' e', en_layer e = [0x141] /\
  load_bytes env0 WINDOWS_1252 (save_dxb (the_drawing [e] [])) = Ok d' /\ dr_entities d' = [e'] /\ en_layer e' = str "A".
Proof.
  set (e := the_entity ent_line [("common.layer", FStr [0x141])] []). exists e.
  assert (B : back_as e (fun e' => seqb (en_layer e') (str "A")) = true) by (vm_compute; reflexivity). apply back_as_sound in B as (d' & e' & L & E & B). exists d', e'.
  split; [vm_compute; reflexivity|]. split; [exact L|]. split; [exact E|]. apply seqb_eq, B.
Qed.
Print Assumptions C40_layer_refuted.

(** * C53, C54: reading a DXB file ends and does not panic *)
Theorem C53_dxb_ends : forall env enc bs r, after_dxb_line enc bs = Some r -> load_bytes env enc bs <> Err OutOfFuel.
Proof. intros env enc bs r H. unfold load_bytes. rewrite H. pose proof (dxb_settles env r) as S. intros E. rewrite E in S. destruct S as [S _]. exact (S eq_refl). Qed.
Print Assumptions C53_dxb_ends.
Theorem C54_dxb_does_not_panic : forall env enc bs r, after_dxb_line enc bs = Some r -> load_bytes env enc bs <> Err Panic.
Proof. intros env enc bs r H. unfold load_bytes. rewrite H. pose proof (dxb_settles env r) as S. intros E. rewrite E in S. destruct S as [_ S]. exact (S eq_refl). Qed.
Print Assumptions C54_dxb_does_not_panic.
(** A file that goes on after its first line with anything. *)
Example C53_dxb_case : after_dxb_line WINDOWS_1252 (dxb_line ++ [10; 26; 0; 133; 7]) = Some [26; 0; 133; 7] /\
  load_bytes env0 WINDOWS_1252 (dxb_line ++ [10; 26; 0; 133; 7]) = Err UnexpectedEndOfInput.
Proof. split; vm_compute; reflexivity. Qed.

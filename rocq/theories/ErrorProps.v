(** C30: malformed pairs are reported. *)
From Verif Require Import Base F64Model CodePairModel CodePairSpec CodePairProofs ReaderProofs VersionModel StreamModel ExtDataModel SpecModel SpecSpec SpecCheck SpecWitness TableData
  EntityData EntityProps ObjectData ObjectProps SectionData HeaderModel HeaderData HeaderProps CustomModel ThumbnailModel DrawingModel FileModel SuffixProofs LoadSpec LoadProofs
  SkipProofs SkipProps SaveModel ErrorProofs.
Open Scope string_scope.
Open Scope list_scope.
Open Scope Z_scope.
Set Default Goal Selector "!".
Local Notation item := LoadSpec.item.

(** The input from the start of a section up to a malformed pair, reported as [e], and what follows it. *)
Definition spoilt (name : rstring) (body : list pair) (e : dxf_error) (rest : feed) : feed :=
  Ok (item "SECTION") :: Ok (mk_pair 2 (VStr name)) :: map Ok body ++ Err e :: rest.

(** ENTITIES: [d] has been read so far. Missing: a malformed pair followed directly by 0/ENDSEC, and sections with attributes or polylines before it
    (both lose data: [C30_last_pair_refuted], [C30_vertex_refuted]). *)
Theorem C30_entities_partial : forall sw env u d body e rest,
  reports (Err e :: rest) -> ~ In (item "ENDSEC") body ->
  (forall g, In g ["ATTRIB"; "ATTDEF"; "INSERT"; "POLYLINE"] -> ~ In (item g) body) ->
  hd_error rest <> Some (Ok (item "ENDSEC")) ->
  exists x, load_from sw env u d (spoilt (str "ENTITIES") body e rest) = Err x.
Proof.
  intros sw env u d body e rest Hr Hn Hg Hh. destruct (load_from sw env u d (spoilt (str "ENTITIES") body e rest)) as [d'|x] eqn:L; [exfalso|exists x; reflexivity].
  apply entities_reported in L as [r ->]; [exact (Hh eq_refl)|exact Hr| |exact Hn].
  intros p Hp. apply in_map_iff in Hp as [g [<- Hp]]. apply Hg, Hp.
Qed.
Print Assumptions C30_entities_partial.
(** OBJECTS. *)
Theorem C30_objects_partial : forall sw env u d body e rest,
  reports (Err e :: rest) -> ~ In (item "ENDSEC") body ->
  ~ In (item "SECTIONSETTINGS") body -> ~ In (item "BLOCK") body ->
  hd_error rest <> Some (Ok (item "ENDSEC")) ->
  exists x, load_from sw env u d (spoilt (str "OBJECTS") body e rest) = Err x.
Proof.
  intros sw env u d body e rest Hr Hn Hs Hb Hh. destruct (load_from sw env u d (spoilt (str "OBJECTS") body e rest)) as [d'|x] eqn:L; [exfalso|exists x; reflexivity].
  apply objects_reported in L as [r ->]; [exact (Hh eq_refl)|exact Hr| |exact Hn].
  intros p [<-|[<-|[]]]; assumption.
Qed.
Print Assumptions C30_objects_partial.
(** BLOCKS: in the pairs of a block before its first entity, after any number of blocks that are read whole. Missing: within an entity of a block
    ([C30_block_refuted]). *)
Theorem C30_block_heads_partial : forall sw env u d bs head e rest,
  (forall b, In b bs -> forall d, exists d', forall rest, read_block d (map Ok b ++ Ok (item "BLOCK") :: rest) = Ok (d', Ok (item "BLOCK") :: rest)) ->
  (forall p, In p head -> p_code p <> 0) ->
  exists x, load_from sw env u d (spoilt (str "BLOCKS") (flat_map (cons (item "BLOCK")) bs ++ item "BLOCK" :: head) e rest) = Err x.
Proof.
  intros sw env u d bs head e rest Hb Hh. destruct (load_from _ _ _ _ _) as [d'|x] eqn:L; [exfalso|exists x; reflexivity].
  unfold spoilt in L. rewrite map_app, <- app_assoc in L. exact (blocks_reported _ _ _ _ _ _ _ _ _ Hb Hh L).
Qed.
Print Assumptions C30_block_heads_partial.
(** Everywhere else a malformed pair is always reported; in the header, once the encoding is settled ([u]). *)
Theorem C30_other_sections : forall sw env u d name body e rest,
  ~ In name (map str ["BLOCKS"; "ENTITIES"; "OBJECTS"]) -> (name = str "HEADER" -> u = true) -> ~ In (item "ENDSEC") body ->
  exists x, load_from sw env u d (spoilt name body e rest) = Err x.
Proof.
  intros sw env u d name body e rest Hx Hu Hn. destruct (load_from _ _ _ _ _) as [d'|x] eqn:L; [exfalso|exists x; reflexivity].
  exact (others_reported _ _ _ _ _ _ _ _ _ Hx Hu Hn L).
Qed.
Print Assumptions C30_other_sections.

(** * Cases *)

Definition text (l : list string) : bytes := flat_map (fun s => str s ++ [10]%N) l.
Definition loaded (l : list string) : res drawing := load_bytes env0 WINDOWS_1252 (text l).
Definition kinds (d : drawing) : list string := map (fun e => entity_type (en_specific e)) (dr_entities d).
Definition is_err {A} (m : res A) : bool := match m with Err _ => true | Ok _ => false end.

(** A file whose second pair of a line is malformed: the hypotheses of [C30_entities_partial] hold of what its reader yields. *)
Definition bad_line : list string := ["0"; "SECTION"; "2"; "ENTITIES"; "0"; "LINE"; "8"; "a"; "10"; "abc"; "20"; "1.0"; "0"; "LINE"; "8"; "b"; "0"; "ENDSEC"; "0"; "EOF"].
Example C30_ex : exists rd body e rest, open_reader WINDOWS_1252 (text bad_line) = Ok rd /\ feed_of rd = spoilt (str "ENTITIES") body e rest /\
  body = [item "LINE"; new_str 8 (str "a")] /\ reports (Err e :: rest) /\ hd_error rest <> Some (Ok (item "ENDSEC")) /\ is_err (loaded bad_line) = true.
Proof.
  eexists. exists [item "LINE"; new_str 8 (str "a")]. eexists. eexists. split; [vm_compute; reflexivity|]. split; [vm_compute; reflexivity|]. split; [reflexivity|].
  split; [|split; [vm_compute; discriminate|vm_compute; reflexivity]].
  intros e He. cbn in He. decompose [or] He; try contradiction; match goal with H : _ = Err e |- _ => first [discriminate H|injection H as <-; split; discriminate] end.
Qed.
Example C30_ex_objects : is_err (loaded ["0"; "SECTION"; "2"; "OBJECTS"; "0"; "ACDBPLACEHOLDER"; "5"; "zz"; "102"; "x"; "0"; "ENDSEC"; "0"; "EOF"]) = true /\
  is_err (loaded ["0"; "SECTION"; "2"; "BLOCKS"; "0"; "BLOCK"; "5"; "1"; "0"; "ENDBLK"; "0"; "BLOCK"; "10"; "abc"; "20"; "1.0"; "0"; "ENDBLK"; "0"; "ENDSEC"; "0"; "EOF"]) = true /\
  is_err (loaded ["0"; "SECTION"; "2"; "CLASSES"; "0"; "CLASS"; "91"; "abc"; "0"; "ENDSEC"; "0"; "EOF"]) = true.
Proof. vm_compute. repeat split; reflexivity. Qed.
(** A block that is read whole. *)
Example C30_ex_block : forall b, In b [[new_str 2 (str "a"); item "ENDBLK"]] -> forall d, exists d', forall rest,
  read_block d (map Ok b ++ Ok (item "BLOCK") :: rest) = Ok (d', Ok (item "BLOCK") :: rest).
Proof.
  intros b [<-|[]] d. eexists. intros rest. reflexivity.
Qed.

(** The statement itself is false. [quietly l test]: a pair of the file is malformed, and it is loaded all the same, as a drawing of which [test] is true. *)
Definition has_malformed (l : list string) : Prop := exists rd e, open_reader WINDOWS_1252 (text l) = Ok rd /\ In (Err e) (feed_of rd).
Definition quietly (l : list string) (test : drawing -> bool) : bool :=
  match open_reader WINDOWS_1252 (text l) with Ok rd => existsb is_err (feed_of rd) | Err _ => false end &&
  match loaded l with Ok d => test d | Err _ => false end.
Lemma quietly_sound l test : quietly l test = true -> has_malformed l /\ exists d, loaded l = Ok d /\ test d = true.
Proof.
  intros H. apply andb_prop in H as [H1 H2]. split.
  - destruct (open_reader WINDOWS_1252 (text l)) as [rd|] eqn:Q; [|discriminate H1]. apply existsb_exists in H1 as [[p|e] [Hi H1]]; [discriminate H1|]. exists rd, e. auto.
  - destruct (loaded l) as [d|]; [|discriminate H2]. exists d. auto.
Qed.
Definition count_is {A} (n : nat) (l : list A) : bool := Nat.eqb (length l) n.
(** The last pair of the section is malformed: the entity, or object, is gone, and nothing is reported. *)
Theorem C30_last_pair_refuted : exists l d l' d',
  l = ["0"; "SECTION"; "2"; "ENTITIES"; "0"; "LINE"; "8"; "a"; "10"; "abc"; "0"; "ENDSEC"; "0"; "EOF"] /\ has_malformed l /\ loaded l = Ok d /\ dr_entities d = [] /\
  l' = ["0"; "SECTION"; "2"; "OBJECTS"; "0"; "PLOTSETTINGS"; "5"; "1"; "40"; "abc"; "0"; "ENDSEC"; "0"; "EOF"] /\ has_malformed l' /\ loaded l' = Ok d' /\ dr_objects d' = [].
Proof.
  destruct (quietly_sound ["0"; "SECTION"; "2"; "ENTITIES"; "0"; "LINE"; "8"; "a"; "10"; "abc"; "0"; "ENDSEC"; "0"; "EOF"] (fun d => count_is 0 (dr_entities d))) as [H1 [d [H2 H3]]];
    [vm_compute; reflexivity|].
  destruct (quietly_sound ["0"; "SECTION"; "2"; "OBJECTS"; "0"; "PLOTSETTINGS"; "5"; "1"; "40"; "abc"; "0"; "ENDSEC"; "0"; "EOF"] (fun d => count_is 0 (dr_objects d))) as [H4 [d' [H5 H6]]];
    [vm_compute; reflexivity|].
  exists ["0"; "SECTION"; "2"; "ENTITIES"; "0"; "LINE"; "8"; "a"; "10"; "abc"; "0"; "ENDSEC"; "0"; "EOF"], d,
    ["0"; "SECTION"; "2"; "OBJECTS"; "0"; "PLOTSETTINGS"; "5"; "1"; "40"; "abc"; "0"; "ENDSEC"; "0"; "EOF"], d'.
  split; [reflexivity|]. split; [exact H1|]. split; [exact H2|]. split; [unfold count_is in H3; destruct (dr_entities d); [reflexivity|discriminate H3]|].
  split; [reflexivity|]. split; [exact H4|]. split; [exact H5|]. unfold count_is in H6. destruct (dr_objects d'); [reflexivity|discriminate H6].
Qed.
Print Assumptions C30_last_pair_refuted.
(** The last pair of a vertex is malformed: the vertex is gone, the polyline is empty, and its other vertex and the end of the sequence are entities of their own. *)
Definition bad_vertex : list string := ["0"; "SECTION"; "2"; "ENTITIES"; "0"; "POLYLINE"; "66"; "1"; "0"; "VERTEX"; "10"; "abc"; "0"; "VERTEX"; "10"; "2.0"; "0"; "SEQEND"; "0"; "ENDSEC"; "0"; "EOF"].
Theorem C30_vertex_refuted : exists d, has_malformed bad_vertex /\ loaded bad_vertex = Ok d /\ kinds d = ["Polyline"; "Vertex"; "Seqend"].
Proof.
  destruct (quietly_sound bad_vertex (fun d => if list_eq_dec string_dec (kinds d) ["Polyline"; "Vertex"; "Seqend"] then true else false)) as [H1 [d [H2 H3]]]; [vm_compute; reflexivity|].
  exists d. split; [exact H1|]. split; [exact H2|]. destruct (list_eq_dec _ _ _) as [H|]; [exact H|discriminate H3].
Qed.
Print Assumptions C30_vertex_refuted.
(** In a block, what follows the malformed pair of an entity is taken for the block's own fields (its base point here), and reading goes on with the next entity. *)
Definition bad_in_block : list string :=
  ["0"; "SECTION"; "2"; "BLOCKS"; "0"; "BLOCK"; "2"; "b"; "0"; "LINE"; "10"; "abc"; "20"; "5.0"; "0"; "CIRCLE"; "8"; "a"; "0"; "ENDBLK"; "0"; "ENDSEC"; "0"; "EOF"].
Theorem C30_block_refuted : exists d, has_malformed bad_in_block /\ loaded bad_in_block = Ok d /\
  map (fun b => map (fun e => entity_type (en_specific e)) (bl_entities b)) (dr_blocks d) = [["Circle"]] /\
  map (fun b => block_store b "base_point.y") (dr_blocks d) = [FF64 4617315517961601024].
Proof.
  destruct (quietly_sound bad_in_block (fun d =>
    match dr_blocks d with
    | [b] => (if list_eq_dec string_dec (map (fun e => entity_type (en_specific e)) (bl_entities b)) ["Circle"] then true else false) &&
             match block_store b "base_point.y" with FF64 x => (x =? 4617315517961601024)%N | _ => false end
    | _ => false
    end)) as [H1 [d [H2 H3]]]; [vm_compute; reflexivity|].
  exists d. split; [exact H1|]. split; [exact H2|]. destruct (dr_blocks d) as [|b [|c l]]; [discriminate H3| |discriminate H3]. cbn [map].
  apply andb_prop in H3 as [H3 H4]. destruct (list_eq_dec _ _ _) as [->|]; [|discriminate H3]. split; [reflexivity|].
  destruct (block_store b "base_point.y"); try discriminate H4. apply N.eqb_eq in H4 as ->. reflexivity.
Qed.
Print Assumptions C30_block_refuted.

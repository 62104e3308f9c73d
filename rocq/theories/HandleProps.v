(** C59: items added to a loaded drawing get handles of their own. *)
From Verif Require Import Base TextModel CodePairModel CodePairSpec LineProofs VersionModel StreamModel SpecModel SpecSpec HeaderModel HeaderData HeaderProps
  DrawingModel DrawingSpec DrawingProofs FileModel SaveModel LoadSpec LoadProofs SkipProofs BytesProofs BytesProps CutProps HandleSpec HandleProofs.
From Verif Require DxbModel.
Open Scope string_scope.
Open Scope list_scope.
Open Scope N_scope.
Set Default Goal Selector "!".

(** The header comes first, if there is one. [rd] also decodes the rest of the file as UTF-8 when the header says so. *)
Definition header_first (rd : reader) : Prop :=
  free_of [mk_pair 2 (VStr (str "HEADER"))] (skipn 2 (feed_of rd)) /\
  forall r, left_of r (skipn 2 (feed_of rd)) -> free_of [mk_pair 2 (VStr (str "HEADER"))] (feed_as_utf8 rd r).
(** A pair that may be met outside the header. *)
Definition occurs (rd : reader) (p : pair) : Prop :=
  In (Ok p) (items_of (feed_of rd)) \/ exists r, left_of r (skipn 2 (feed_of rd)) /\ In (Ok p) (tl (from_zero (feed_as_utf8 rd r))).

(** If every handle in the file's sections after the header is below the one that the loaded drawing gives next, no item has that handle, then or later, and the items that are added get
    it. 0 and the mark of a vertex or attribute without a handle are not handles.
    Missing: files with a handle that is not below, for which it is refuted. *)
Theorem C59_handles_are_free_partial : forall env enc bs rd d', line_text enc (without_mark (nth_line 0 bs)) <> Some (str "AutoCAD DXB 1.0") ->
  open_reader enc bs = Ok rd -> header_first rd -> load_bytes env enc bs = Ok d' ->
  (forall p h, occurs rd p -> p_code p = 5%Z \/ p_code p = 105%Z -> as_handle p = Ok h -> h < next_of d') ->
  forall d o, steps (d', []) (d, o) ->
  (forall h, In h (o ++ handles d) -> h = 0 \/ h = 18446744073709551615 \/ h < next_of d) /\
  (forall k x, tget k (add_table k x d) = (tget k d ++ [mk_ti (next_of d) (ti_name x) (ti_fields x)])%list) /\
  (forall b, exists b', dr_blocks (add_block b d) = (dr_blocks d ++ [b'])%list /\ bl_handle b' = next_of d) /\
  (forall e, exists e', dr_entities (add_entity e d) = (dr_entities d ++ [e'])%list /\ en_handle e' = next_of d) /\
  (forall x, dr_objects (add_object x d) = (dr_objects d ++ [mk_object (next_of d) (ob_specific x) (ob_fields x)])%list).
Proof.
  intros env enc bs rd d' H O [Hh1 Hh2] L Hc d o St. assert (A : after_dxb_line enc bs = None).
  { unfold after_dxb_line. destruct (read_line_lines true enc bs) as (r & E & _). rewrite E. destruct (line_text enc _) as [s|]; [|reflexivity]. cbn [res_of_option].
    destruct (seqb s DxbModel.dxb_line) eqn:Q; [|reflexivity]. apply seqb_eq in Q as ->. contradiction H. reflexivity. }
  unfold load_bytes in L. rewrite A, O in L. cbn [bind] in L. split; [|split; [|split; [|split]]].
  - assert (L0 : loose (d', [])).
    { refine (load_loose (feed_as_utf8 rd) env (feed_of rd) d' (feed_reports rd) _ Hh1 _ L).
      - intros r Hr. split; [apply utf8_reports|exact (Hh2 r Hr)].
      - intros p x Hp. exact (Hc p x Hp). }
    exact (steps_loose _ _ St L0).
  - intros k x. apply add_table_last.
  - intros b. destruct (add_block_spec b d) as (b' & d1 & E & B & _ & _ & _ & _ & (_ & R & _) & _). exists b'. rewrite E. split; [destruct d1; reflexivity|exact B].
  - intros e. destruct (add_entity_spec e d) as (e' & d1 & E & _ & _ & _ & _ & _ & X & _). exists e'. rewrite E. split; [destruct d1; reflexivity|exact X].
  - intros x. destruct (add_object_spec x d) as (d1 & E & _). rewrite E. apply objects_set_objects.
Qed.
Print Assumptions C59_handles_are_free_partial.
(** A layer and a line with handles, and a circle without one. *)
Definition seeded_file : bytes := file_of ["0"; "SECTION"; "2"; "HEADER"; "9"; "$ACADVER"; "1"; "AC1015"; "9"; "$HANDSEED"; "5"; "F0"; "0"; "ENDSEC";
  "0"; "SECTION"; "2"; "TABLES"; "0"; "TABLE"; "2"; "LAYER"; "0"; "LAYER"; "5"; "10"; "2"; "walls"; "0"; "ENDTAB"; "0"; "ENDSEC";
  "0"; "SECTION"; "2"; "ENTITIES"; "0"; "LINE"; "5"; "EF"; "8"; "walls"; "0"; "CIRCLE"; "8"; "walls"; "0"; "ENDSEC"; "0"; "EOF"].
Fixpoint tails {A} (l : list A) : list (list A) := match l with [] => [[]] | _ :: r => l :: tails r end.
Lemma left_tails r it : left_of r it -> In r (tails it).
Proof.
  intros [pre ->]. induction pre as [|x pre IH]; cbn [app tails]; [destruct r; left; reflexivity|right; exact IH].
Qed.
Definition lacks (it : feed) : bool := forallb (fun x => match x with Ok p => negb (is_header p) | Err _ => true end) it.
Lemma lacks_sound it : lacks it = true -> free_of [mk_pair 2 (VStr (str "HEADER"))] it.
Proof. unfold lacks. rewrite forallb_forall. intros H p [<-|[]] Hp. specialize (H _ Hp). vm_compute in H. discriminate H. Qed.
Definition lower (n : N) (it : feed) : bool :=
  forallb (fun x => match x with Ok p => negb (handle_code (p_code p)) || match as_handle p with Ok h => h <? n | Err _ => true end | Err _ => true end) it.
Lemma lower_sound n it : lower n it = true -> forall p h, In (Ok p) it -> p_code p = 5%Z \/ p_code p = 105%Z -> as_handle p = Ok h -> h < n.
Proof.
  unfold lower. rewrite forallb_forall. intros H p h Hp Hc Hh. specialize (H _ Hp). cbn beta iota in H. rewrite Hh in H. unfold handle_code in H. destruct Hc as [C|C]; rewrite C in H; cbn in H; lia.
Qed.
Definition nlistb (a b : list N) : bool := if list_eq_dec N.eq_dec a b then true else false.
Lemma nlistb_eq a b : nlistb a b = true -> a = b.
Proof. unfold nlistb. destruct (list_eq_dec N.eq_dec a b) as [Q|Q]; [intros _; exact Q|discriminate]. Qed.
Definition new_line : entity := mk_entity 0 (str "walls") [] (EOther "Line") [].
Definition seeded_next : N := 243.
Definition seeded_check (bs : bytes) : bool :=
  match open_reader WINDOWS_1252 bs, load_bytes env0 WINDOWS_1252 bs with
  | Ok rd, Ok d => lacks (skipn 2 (feed_of rd)) && forallb (fun r => lacks (feed_as_utf8 rd r)) (tails (skipn 2 (feed_of rd))) && (next_of d =? seeded_next) &&
      lower seeded_next (items_of (feed_of rd)) && forallb (fun r => lower seeded_next (tl (from_zero (feed_as_utf8 rd r)))) (tails (skipn 2 (feed_of rd))) &&
      (nlistb (map en_handle (dr_entities d)) [239; 242] && nlistb (map en_handle (dr_entities (add_entity new_line d))) [239; 242; 243])
  | _, _ => false
  end.
Example C59_case : exists rd d', line_text WINDOWS_1252 (without_mark (nth_line 0 seeded_file)) <> Some (str "AutoCAD DXB 1.0") /\
  open_reader WINDOWS_1252 seeded_file = Ok rd /\ header_first rd /\ load_bytes env0 WINDOWS_1252 seeded_file = Ok d' /\ next_of d' = 243 /\
  (forall p h, occurs rd p -> p_code p = 5%Z \/ p_code p = 105%Z -> as_handle p = Ok h -> h < next_of d') /\
  map en_handle (dr_entities d') = [239; 242] /\ map en_handle (dr_entities (add_entity new_line d')) = [239; 242; 243].
Proof.
  assert (H : seeded_check seeded_file = true) by (vm_compute; reflexivity).
  assert (N0 : line_text WINDOWS_1252 (without_mark (nth_line 0 seeded_file)) <> Some (str "AutoCAD DXB 1.0")) by (vm_compute; discriminate).
  unfold seeded_check in H. destruct (open_reader WINDOWS_1252 seeded_file) as [rd|e] eqn:O; [|discriminate H].
  destruct (load_bytes env0 WINDOWS_1252 seeded_file) as [d|e] eqn:L; [|discriminate H]. exists rd, d.
  apply andb_true_iff in H as [H H6]. apply andb_true_iff in H as [H H5]. apply andb_true_iff in H as [H H4]. apply andb_true_iff in H as [H H3]. apply andb_true_iff in H as [H1 H2].
  rewrite forallb_forall in H2, H5. apply N.eqb_eq in H3. apply andb_true_iff in H6 as [H6 H7]. split; [exact N0|]. split; [reflexivity|]. split.
  { split; [exact (lacks_sound _ H1)|]. intros r Hr. exact (lacks_sound _ (H2 r (left_tails _ _ Hr))). }
  split; [reflexivity|]. split; [exact H3|]. split.
  { intros p h [K|[r [Kr K]]] C E; rewrite H3; [exact (lower_sound _ _ H4 p h K C E)|exact (lower_sound _ _ (H5 r (left_tails _ _ Kr)) p h K C E)]. }
  split; [exact (nlistb_eq _ _ H6)|exact (nlistb_eq _ _ H7)].
Qed.

(** Loading does not look at the handles it finds: without $HANDSEED, or with one that is too low, an item that is added shares its handle with another. *)
Definition unseeded_file : bytes := file_of ["0"; "SECTION"; "2"; "ENTITIES"; "0"; "LINE"; "5"; "4"; "8"; "walls"; "0"; "ENDSEC"; "0"; "EOF"].
Theorem C59_no_seed_refuted : exists bs d, load_bytes env0 WINDOWS_1252 bs = Ok d /\ map en_handle (dr_entities d) = [4] /\
  map en_handle (dr_entities (add_entity new_line d)) = [4; 4].
Proof.
  exists unseeded_file.
  assert (H : match load_bytes env0 WINDOWS_1252 unseeded_file with
    | Ok d => nlistb (map en_handle (dr_entities d)) [4] && nlistb (map en_handle (dr_entities (add_entity new_line d))) [4; 4] | Err _ => false end = true) by (vm_compute; reflexivity).
  destruct (load_bytes env0 WINDOWS_1252 unseeded_file) as [d|e]; [|discriminate H]. exists d. apply andb_true_iff in H as [H1 H2].
  split; [reflexivity|]. split; [exact (nlistb_eq _ _ H1)|exact (nlistb_eq _ _ H2)].
Qed.
Print Assumptions C59_no_seed_refuted.

(** C53, C54: loading ends, and does not panic. *)
From Verif Require Import Base F64Model CodePairModel CodePairProofs ReaderProofs VersionModel StreamModel SpecModel SpecSpec HeaderModel HeaderData HeaderProps
  CustomModel SectionData DrawingModel FileModel SuffixProofs LoadSpec LoadProofs.
Open Scope string_scope.
Open Scope list_scope.
Open Scope Z_scope.
Set Default Goal Selector "!".

Lemma good_of (E : dxf_error -> Prop) l it : reports it -> ((E OutOfFuel \/ (forall p, In p slow_pairs -> In p l)) /\ (E Panic \/ (forall p, In p wild_pairs -> In p l))) ->
  free_of l it -> good E it.
Proof.
  intros Hr [H1 H2] Hf. split; [split|].
  - destruct H1 as [H1|H1]; [left; exact H1|right]. intros p Hp. apply Hf, H1, Hp.
  - destruct H2 as [H2|H2]; [left; exact H2|right]. intros p Hp. apply Hf, H2, Hp.
  - intros e He. destruct (Hr e He). split; assumption.
Qed.
Lemma load_err (E : dxf_error -> Prop) sw env l it e : (forall e, genuine e -> E e) ->
  ((E OutOfFuel \/ (forall p, In p slow_pairs -> In p l)) /\ (E Panic \/ (forall p, In p wild_pairs -> In p l))) ->
  reports it -> free_of l it -> redecodes sw l it -> load sw env it = Err e -> E e.
Proof.
  intros Eok HE Hr Hf Hsw. unfold load, load_from. pose proof (good_of E l it Hr HE Hf) as Hg.
  assert (K : kept_good E sw it).
  { intros y [pre ->]. destruct (Hsw y (ex_intro _ pre eq_refl)) as [H2 H3]. exact (good_of E l _ H2 HE H3). }
  pose proof (sections_end E Eok sw env (S (length it)) false (start env) it (or_intror K) Hg (Nat.lt_succ_diag_r _)) as S.
  destruct (read_sections _ _ _ _ _ _) as [[d r]|e']; cbn [bind].
  - destruct r as [|[p|e'] r]; [discriminate| |].
    + destruct (is_zero "EOF" p); [discriminate|]. intros X. injection X as <-. apply Eok. split; discriminate.
    + intros X. injection X as <-. apply Eok. apply S. left. reflexivity.
  - intros X. injection X as <-. exact S.
Qed.

(** * C53: loading ends *)

(** A file without blocks and section settings is read in finitely many steps, whatever it contains. (In the model a loop that goes on forever ends with
    [OutOfFuel] for every bound on the number of its steps.) Missing: files with blocks, see below; section settings, for which C46 has a counterexample. *)
Theorem C53_load_ends_partial : forall sw env it, reports it -> free_of [item "BLOCK"; item "SECTIONSETTINGS"] it ->
  redecodes sw [item "BLOCK"; item "SECTIONSETTINGS"] it -> load sw env it <> Err OutOfFuel.
Proof.
  intros sw env it Hr Hf Hsw H.
  apply (load_err (fun e => e <> OutOfFuel) sw env [item "BLOCK"; item "SECTIONSETTINGS"] it OutOfFuel) in H; try assumption; [exact (H eq_refl)| |].
  - intros e [He _]. exact He.
  - split; [right|left; discriminate]. intros p Hp. cbn in Hp |- *. tauto.
Qed.
Print Assumptions C53_load_ends_partial.
(** Blocks too, as long as the section does not end within the block. *)
Theorem C53_block_ends_partial : forall d it, reports it -> free_of [item "ENDSEC"; item "BLOCK"; item "SECTIONSETTINGS"] it -> read_block d it <> Err OutOfFuel.
Proof.
  intros d it Hr Hf H.
  assert (G : good (fun e => e <> OutOfFuel) it).
  { apply (good_of _ [item "ENDSEC"; item "BLOCK"; item "SECTIONSETTINGS"]); [exact Hr| |exact Hf]. split; [right|left; discriminate]. intros p Hp. cbn in Hp |- *. tauto. }
  pose proof (read_block_goes (fun e => e <> OutOfFuel) (fun e (He : genuine e) => proj1 He) d it G) as S. rewrite H in S. cbn [goes] in S. apply S; [|reflexivity].
  right. apply Hf. left. reflexivity.
Qed.
Print Assumptions C53_block_ends_partial.

Definition in_section (name : string) (body : list (res pair)) : list (res pair) :=
  (map Ok [item "SECTION"; name_pair name] ++ body ++ map Ok [item "ENDSEC"; item "EOF"])%list.
(** Two lines and an unfinished third. *)
Example C53_ex :
  let it := in_section "ENTITIES" (map Ok [item "LINE"; new_str 8 (str "a"); item "POINT"; item "LINE"; new_f64 10 0] ++ [Err UnexpectedEndOfInput]) in
  reports it /\ free_of [item "BLOCK"; item "SECTIONSETTINGS"] it /\ length it = 10%nat /\
  match load (fun x => x) env0 it with Ok d => length (dr_entities d) = 2%nat | Err _ => False end.
Proof.
  cbv zeta. split; [|split; [|split; [reflexivity|vm_compute; reflexivity]]].
  - intros e He. cbn in He. decompose [or] He; try contradiction; match goal with H : _ = _ |- _ => first [discriminate H|injection H as <-; split; discriminate] end.
  - intros p Hp He. cbn in Hp, He. destruct Hp as [<-|[<-|[]]]; decompose [or] He; try contradiction; match goal with H : _ = _ |- _ => discriminate H end.
Qed.

(** A block that is not closed before its section ends is read forever: the entity reader does not take the 0/ENDSEC and [read_block] only stops at 0/ENDBLK.
    (src/block.rs:131-198) *)
Theorem C53_open_block_refuted : exists it, (forall fuel st es, read_block_fuel fuel st es it = Err OutOfFuel) /\ 
  load (fun x => x) env0 (in_section "BLOCKS" (map Ok [item "BLOCK"] ++ [])) = Err OutOfFuel /\
  it = map Ok [item "ENDSEC"; item "EOF"].
Proof.
  exists (map Ok [item "ENDSEC"; item "EOF"]). split; [|split; [vm_compute; reflexivity|reflexivity]].
  assert (C : collect (map Ok [item "ENDSEC"; item "EOF"]) = Ok ([], map Ok [item "ENDSEC"; item "EOF"])) by (vm_compute; reflexivity).
  induction fuel as [|f IH]; intros st es; [reflexivity|]. cbn [read_block_fuel].
  change (run (sp_arms (it_spec block_head)) false (S (length (map Ok [item "ENDSEC"; item "EOF"] : list (res pair)))) (map Ok [item "ENDSEC"; item "EOF"]) st [])
    with (Ok (st, [] : list Z, map (@Ok pair) [item "ENDSEC"; item "EOF"])).
  cbn [bind fst snd map]. change (is_zero "ENDBLK" (item "ENDSEC")) with false. cbn [map] in C. rewrite C. cbn [bind]. apply IH.
Qed.
Print Assumptions C53_open_block_refuted.

(** * C54: loading does not panic *)

(** The pairs that lead to the places where the readers compute without care: dates, data tables, thumbnails, the colour of a layer. *)
Definition careless : list pair :=
  [item "DATATABLE"; item "SUNSTUDY"; mk_pair 2 (VStr (str "THUMBNAILIMAGE")); mk_pair 62 (VShort (-32768)); mk_pair 62 (VBool (-32768));
   mk_pair 9 (VStr (str "$TDCREATE")); mk_pair 9 (VStr (str "$TDUCREATE")); mk_pair 9 (VStr (str "$TDUPDATE")); mk_pair 9 (VStr (str "$TDUUPDATE"))].
Theorem C54_load_does_not_panic_partial : forall sw env it, reports it -> free_of careless it -> redecodes sw careless it -> load sw env it <> Err Panic.
Proof.
  intros sw env it Hr Hf Hsw H.
  apply (load_err (fun e => e <> Panic) sw env careless it Panic) in H; try assumption; [exact (H eq_refl)| |].
  - intros e [_ He]. exact He.
  - split; [left; discriminate|right]. intros p Hp. cbn in Hp |- *. tauto.
Qed.
Print Assumptions C54_load_does_not_panic_partial.
(** Wrong value types, unknown items, missing pairs: all are reported. *)
Example C54_ex :
  let it := in_section "TABLES" (map Ok [item "TABLE"; name_pair "LAYER"; item "LAYER"; new_str 2 (str "a"); mk_pair 62 (VShort 7); new_f64 2 0]) in
  reports it /\ free_of careless it /\ load (fun x => x) env0 it = Err (WrongValueType 0).
Proof.
  cbv zeta. split; [|split; [|vm_compute; reflexivity]].
  - intros e He. cbn in He. decompose [or] He; try contradiction; match goal with H : _ = _ |- _ => discriminate H end.
  - intros p Hp He. cbn in Hp, He. decompose [or] Hp; subst; try contradiction; decompose [or] He; try contradiction; match goal with H : _ = _ |- _ => discriminate H end.
Qed.

(** A layer with the colour -32768, a data table with a negative number of columns and one whose number of columns is given twice, a creation date in the far future, a
    thumbnail with a huge colour table, a sun study with a date in the far future: each panics. *)
Definition panics : list feed :=
  [in_section "TABLES" (map Ok [item "TABLE"; name_pair "LAYER"; item "LAYER"; mk_pair 62 (VShort (-32768))]);
   in_section "OBJECTS" (map Ok [item "DATATABLE"; mk_pair 90 (VInt (-1)); mk_pair 91 (VInt 1)]);
   in_section "OBJECTS" (map Ok [item "DATATABLE"; mk_pair 90 (VInt 1); mk_pair 91 (VInt 1); mk_pair 90 (VInt 2); mk_pair 92 (VInt 0); mk_pair 3 (VStr [])]);
   in_section "HEADER" (map Ok [new_str 9 (str "$TDCREATE"); new_f64 40 (f64_of_Z 100000000)]);
   in_section "THUMBNAILIMAGE" (map Ok [mk_pair 90 (VInt 36); mk_pair 310 (VBin (repeat 255%N 36))]);
   in_section "OBJECTS" (map Ok [item "SUNSTUDY"; mk_pair 90 (VInt 0); mk_pair 90 (VInt 2147483647); mk_pair 90 (VInt 0)])].
Theorem C54_load_refuted : Forall (fun it => reports it /\ load (fun x => x) env0 it = Err Panic) panics.
Proof.
  assert (H : forallb (fun it => forallb (fun x : res pair => match x with Ok _ => true | Err _ => false end) it &&
    match load (fun x => x) env0 it with Err Panic => true | _ => false end) panics = true) by (vm_compute; reflexivity).
  rewrite forallb_forall in H. apply Forall_forall. intros it Hit. specialize (H it Hit). apply andb_prop in H as [H1 H2]. split.
  - intros e He. rewrite forallb_forall in H1. specialize (H1 _ He). discriminate H1.
  - destruct (load _ _ it) as [d|[]]; try discriminate H2. reflexivity.
Qed.
Print Assumptions C54_load_refuted.

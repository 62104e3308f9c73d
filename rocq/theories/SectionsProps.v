(** Each section of a file fills its own part of the drawing (C64). *)
From Verif Require Import Base TextModel TextProofs VersionModel CodePairModel CodePairSpec CodePairProofs DrawingModel FileModel LoadProofs SaveModel SaveSpec SaveProofs HeaderProps FileWitness LoadSpec SectionsSpec SectionsProofs SectionsFileProofs.
Open Scope string_scope.
Open Scope list_scope.
Open Scope N_scope.
Set Default Goal Selector "!".
Local Notation idle := (fun it : feed => it).

(** The sections of a file, after its header, can be read apart: what the file gives is what each of the sections gives in a file with only it and the header. *)
Theorem C64_sections_apart : forall env h l d0, header_part h -> load idle env (map Ok (file_of_sections h)) = Ok d0 ->
  Forall (fun x => named "HEADER" (fst x) = false /\ closed (fst x) /\ load idle env (map Ok (file_of_sections (h ++ [fst x]))) = Ok (snd x)) l ->
  exists d, load idle env (map Ok (file_of_sections (h ++ map fst l))) = Ok d /\ assembled l d /\ set_next 0 (dr_header d) = set_next 0 (dr_header d0).
Proof. exact sections_together. Qed.
Print Assumptions C64_sections_apart.

Lemma file_starts l : exists s ps, file_of_sections l = mk_pair 0 (VStr s) :: ps /\ s <> [].
Proof. destruct l as [|[n b] l]; [exists (str "EOF"), []|exists (str "SECTION"); eexists]; (split; [reflexivity|discriminate]). Qed.
Definition storable_section (P : pair -> Prop) (s : sect) : Prop := P (mk_pair 2 (VStr (fst s))) /\ Forall P (snd s).
Lemma storable_file (P : pair -> Prop) l : P (item "SECTION") -> P (item "ENDSEC") -> P (item "EOF") -> Forall (storable_section P) l -> Forall P (file_of_sections l).
Proof.
  intros S E F. unfold file_of_sections. intros H. apply Forall_app. split; [|constructor; [exact F|constructor]].
  induction H as [|s l [N B] _ IH]; [constructor|]. cbn [flat_map section_of app]. constructor; [exact S|]. constructor; [exact N|]. rewrite <- app_assoc. apply Forall_app. split; [exact B|]. constructor; [exact E|exact IH].
Qed.

(** The same for the bytes of binary files *)
Theorem C64_binary_sections_apart : forall env enc v h l d0, let bytes_of l := write_binary (version_leb R13 v) (file_of_sections l) in
  Forall (storable_section (binary_storable v)) (h ++ map fst l) ->
  header_part h -> load_bytes env enc (bytes_of h) = Ok d0 ->
  Forall (fun x => named "HEADER" (fst x) = false /\ closed (fst x) /\ load_bytes env enc (bytes_of (h ++ [fst x])) = Ok (snd x)) l ->
  exists d, load_bytes env enc (bytes_of (h ++ map fst l)) = Ok d /\ assembled l d /\ set_next 0 (dr_header d) = set_next 0 (dr_header d0).
Proof.
  intros env enc v h l d0 bytes_of S Hh H0 Hl.
  assert (B : forall m d, Forall (storable_section (binary_storable v)) m -> load_bytes env enc (bytes_of m) = Ok d <-> load idle env (map Ok (file_of_sections m)) = Ok d).
  { intros m d M. apply storable_file in M; [|apply binary_storableb_sound; destruct v; reflexivity ..]. unfold bytes_of. destruct (file_starts m) as (s & ps & E & Ns). rewrite E in *. apply binary_pairs; [exact Ns| |].
    - eapply Forall_impl; [|exact M]. intros p (H1 & H2 & _). split; assumption.
    - inversion_clear M as [|? ? _ M']. eapply Forall_impl; [|exact M']. intros p (_ & _ & H). exact H. }
  pose proof S as S'. apply Forall_app in S' as [Sh Sl]. apply (B _ _ Sh) in H0. destruct (sections_together env h l d0 Hh H0) as (d & L & R).
  - rewrite Forall_forall in *. intros x I. destruct (Hl x I) as (N & C & L). split; [exact N|]. split; [exact C|]. apply (B _ _); [|exact L]. apply Forall_app. split; [apply Forall_forall, Sh|]. constructor; [|constructor]. apply Sl, in_map, I.
  - exists d. split; [apply (B _ _ S), L|exact R].
Qed.
Print Assumptions C64_binary_sections_apart.

(** and of text files whose strings are ASCII. *)
Definition text_plain (p : pair) : Prop := typed p /\ value_wf (p_value p) /\ p_code p <> 999%Z /\
  match p_value p with VDouble x => decimal12 x | VStr s => Forall (fun c => c < 128) s /\ backslash_safe (caret_form s) | _ => True end.
Lemma text_plain_both ascii p : text_plain p -> both_encodings ascii p.
Proof.
  intros (T & W & N & V). split; [exact T|]. split; [|split; [|exact N]]; (split; [exact W|]); destruct (p_value p) as [| | | | |s|]; try exact V; destruct V as [A B].
  - split; [exact B|right; exact A].
  - split; [right; exact A|]. inversion A as [|c r Hc _]; subst; cbn [hd]; lia.
Qed.
Lemma simple_plain s : simple s = true -> Forall (fun c => c < 128) s /\ backslash_safe (caret_form s).
Proof. intros H. destruct (simple_faithful false WINDOWS_1252 s H) as (_ & B & [A|A]); [discriminate A|split; assumption]. Qed.
Theorem C64_text_sections_apart : forall env ascii h l d0, let bytes_of l := write_text ascii (file_of_sections l) in
  Forall (storable_section text_plain) (h ++ map fst l) ->
  header_part h -> load_bytes env WINDOWS_1252 (bytes_of h) = Ok d0 ->
  Forall (fun x => named "HEADER" (fst x) = false /\ closed (fst x) /\ load_bytes env WINDOWS_1252 (bytes_of (h ++ [fst x])) = Ok (snd x)) l ->
  exists d, load_bytes env WINDOWS_1252 (bytes_of (h ++ map fst l)) = Ok d /\ assembled l d /\ set_next 0 (dr_header d) = set_next 0 (dr_header d0).
Proof.
  intros env ascii h l d0 bytes_of S Hh H0 Hl.
  assert (Z : forall s, s = "SECTION" \/ s = "ENDSEC" \/ s = "EOF" -> text_plain (item s)).
  { intros s Hs. destruct (text_storableb_sound R12 (item s)) as (T & (W & _) & N); [destruct Hs as [-> |[-> | ->]]; reflexivity|]. split; [exact T|]. split; [exact W|]. split; [exact N|]. apply simple_plain. destruct Hs as [-> |[-> | ->]]; reflexivity. }
  assert (B : forall m d, Forall (storable_section text_plain) m -> load_bytes env WINDOWS_1252 (bytes_of m) = Ok d <-> load idle env (map Ok (file_of_sections m)) = Ok d).
  { intros m d M. apply storable_file in M; [|apply Z; tauto ..]. unfold bytes_of. destruct (file_starts m) as (s & ps & E & Ns). rewrite E in *. apply text_pairs. eapply Forall_impl; [|exact M]. apply text_plain_both. }
  pose proof S as S'. apply Forall_app in S' as [Sh Sl]. apply (B _ _ Sh) in H0. destruct (sections_together env h l d0 Hh H0) as (d & L & R).
  - rewrite Forall_forall in *. intros x I. destruct (Hl x I) as (N & C & L). split; [exact N|]. split; [exact C|]. apply (B _ _); [|exact L]. apply Forall_app. split; [apply Forall_forall, Sh|]. constructor; [|constructor]. apply Sl, in_map, I.
  - exists d. split; [apply (B _ _ S), L|exact R].
Qed.
Print Assumptions C64_text_sections_apart.

(** A file with a header, an entity, a layer, a class, a block and an object. *)
Definition a_header : sect := (str "HEADER", [mk_pair 9 (VStr (str "$ACADVER")); mk_pair 1 (VStr (str "AC1015"))]).
Definition an_entities : sect := (str "ENTITIES", [item "LINE"; mk_pair 8 (VStr (str "A")); item "MLINE"; mk_pair 2 (VStr (str "walls"))]).
Definition a_tables : sect := (str "TABLES", [item "TABLE"; mk_pair 2 (VStr (str "LAYER")); item "LAYER"; mk_pair 2 (VStr (str "A")); mk_pair 6 (VStr (str "dashed")); item "ENDTAB"]).
Definition a_classes : sect := (str "CLASSES", [item "CLASS"; mk_pair 1 (VStr (str "X"))]).
Definition a_blocks : sect := (str "BLOCKS", [item "BLOCK"; mk_pair 2 (VStr (str "b")); item "CIRCLE"; mk_pair 8 (VStr (str "B")); item "ENDBLK"]).
Definition an_objects : sect := (str "OBJECTS", [item "ACDBPLACEHOLDER"]).
Definition sections_here : list sect := [an_entities; a_tables; a_blocks; an_objects; a_classes; an_entities].
Definition alone env (h : list sect) (s : sect) : drawing := match load idle env (map Ok (file_of_sections (h ++ [s]))) with Ok d => d | Err _ => start env end.
Definition loadsb env (h : list sect) (s : sect) : bool := match load idle env (map Ok (file_of_sections (h ++ [s]))) with Ok d => true | Err _ => false end.
Definition endsec (p : pair) : bool := (p_code p =? 0)%Z && match p_value p with VStr s => seqb s (str "ENDSEC") | _ => false end.
Definition apartb env (h : list sect) (s : sect) : bool := negb (named "HEADER" s) && negb (existsb endsec (snd s)) && loadsb env h s.
Lemma closedb_sound s : existsb endsec (snd s) = false -> closed s.
Proof. intros H I. assert (X : existsb endsec (snd s) = true); [|congruence]. apply existsb_exists. exists (item "ENDSEC"). split; [exact I|reflexivity]. Qed.
Lemma apartb_sound env h l : forallb (apartb env h) l = true ->
  Forall (fun x => named "HEADER" (fst x) = false /\ closed (fst x) /\ load idle env (map Ok (file_of_sections (h ++ [fst x]))) = Ok (snd x)) (map (fun s => (s, alone env h s)) l).
Proof.
  intros H. apply Forall_map, Forall_forall. intros s I. apply (proj1 (forallb_forall _ _) H) in I. unfold apartb, loadsb in I. cbn [fst snd]. apply andb_true_iff in I as [I L]. apply andb_true_iff in I as [N C]. apply negb_true_iff in N, C.
  split; [exact N|]. split; [apply closedb_sound, C|]. unfold alone. destruct (load _ _ _); [reflexivity|discriminate L].
Qed.
Example C64_sections_case : header_part [a_header] /\ (exists d0, load idle env0 (map Ok (file_of_sections [a_header])) = Ok d0) /\
  let l := map (fun s => (s, alone env0 [a_header] s)) sections_here in
  Forall (fun x => named "HEADER" (fst x) = false /\ closed (fst x) /\ load idle env0 (map Ok (file_of_sections ([a_header] ++ [fst x]))) = Ok (snd x)) l /\
  map (fun x => (length (dr_entities (snd x)), length (dr_layers (snd x)), length (dr_blocks (snd x)), length (dr_objects (snd x)), length (dr_classes (snd x)))) l =
    [(2, 2, 0, 1, 0); (0, 1, 0, 0, 0); (0, 2, 1, 0, 0); (0, 0, 0, 1, 0); (0, 0, 0, 0, 1); (2, 2, 0, 1, 0)]%nat /\
  Forall (storable_section text_plain) ([a_header] ++ map fst l) /\ Forall (storable_section (binary_storable R2000)) ([a_header] ++ map fst l).
Proof.
  split; [right; exists a_header; split; [reflexivity|]; split; [reflexivity|apply closedb_sound; reflexivity]|]. split.
  { destruct (load idle env0 (map Ok (file_of_sections [a_header]))) as [d|e] eqn:E; [exists d; reflexivity|]. exfalso. assert (X : match load idle env0 (map Ok (file_of_sections [a_header])) with Ok _ => true | Err _ => false end = true) by (vm_compute; reflexivity). rewrite E in X. discriminate X. }
  cbv zeta. split; [apply apartb_sound; vm_compute; reflexivity|]. split; [vm_compute; reflexivity|]. rewrite map_map. cbn [fst]. rewrite map_id.
  assert (P : forall p, text_storableb R12 p = true -> match p_value p with VStr s => simple s = true | VDouble _ => False | _ => True end -> text_plain p).
  { intros p H K. destruct (text_storableb_sound R12 p H) as (T & (W & _) & N). split; [exact T|]. split; [exact W|]. split; [exact N|]. destruct (p_value p); try exact Logic.I; [contradiction K|apply simple_plain, K]. }
  split.
  - repeat (constructor; [split; [apply P; reflexivity|repeat (constructor; [apply P; reflexivity|]); constructor]|]). constructor.
  - repeat (constructor; [split; [apply binary_storableb_sound; reflexivity|repeat (constructor; [apply binary_storableb_sound; reflexivity|]); constructor]|]). constructor.
Qed.

(** So it makes no difference to these collections in which order sections of different names come. *)
Theorem C64_any_order : forall env h l l' d0, header_part h -> load idle env (map Ok (file_of_sections h)) = Ok d0 ->
  Forall (fun s => named "HEADER" s = false /\ closed s /\ exists a, load idle env (map Ok (file_of_sections (h ++ [s]))) = Ok a) l ->
  (forall n, filter (fun s => seqb (fst s) n) l' = filter (fun s => seqb (fst s) n) l) ->
  exists d d', load idle env (map Ok (file_of_sections (h ++ l))) = Ok d /\ load idle env (map Ok (file_of_sections (h ++ l'))) = Ok d' /\
    map bare_entity (dr_entities d') = map bare_entity (dr_entities d) /\ map bare_block (dr_blocks d') = map bare_block (dr_blocks d) /\ dr_classes d' = dr_classes d /\ dr_thumbnail d' = dr_thumbnail d /\
    filter (fun o => negb (is_style o)) (map bare_object (dr_objects d')) = filter (fun o => negb (is_style o)) (map bare_object (dr_objects d)) /\
    set_next 0 (dr_header d') = set_next 0 (dr_header d).
Proof.
  intros env h l l' d0 Hh H0 Hl Same.
  assert (Hl' : Forall (fun s => named "HEADER" s = false /\ closed s /\ exists a, load idle env (map Ok (file_of_sections (h ++ [s]))) = Ok a) l').
  { rewrite Forall_forall in *. intros s I. apply Hl. assert (J : In s (filter (fun x => seqb (fst x) (fst s)) l')) by (apply filter_In; split; [exact I|apply seqb_eq; reflexivity]). rewrite Same in J. apply filter_In in J. apply J. }
  assert (A : forall m, Forall (fun s => named "HEADER" s = false /\ closed s /\ exists a, load idle env (map Ok (file_of_sections (h ++ [s]))) = Ok a) m ->
    exists d, load idle env (map Ok (file_of_sections (h ++ m))) = Ok d /\ assembled (map (fun s => (s, alone env h s)) m) d /\ set_next 0 (dr_header d) = set_next 0 (dr_header d0)).
  { intros m M. destruct (sections_together env h (map (fun s => (s, alone env h s)) m) d0 Hh H0) as (d & L & R).
    - apply Forall_map. eapply Forall_impl; [|exact M]. intros s (N & C & a & L). cbn [fst snd]. split; [exact N|]. split; [exact C|]. unfold alone. rewrite L. reflexivity.
    - exists d. rewrite map_map in L. cbn [fst] in L. rewrite map_id in L. split; assumption. }
  assert (O : forall n m, of n (map (fun s => (s, alone env h s)) m) = map (alone env h) (filter (named n) m)).
  { intros n m. unfold of. induction m as [|s m IH]; [reflexivity|]. cbn [map filter fst]. destruct (named n s); cbn [map snd]; rewrite IH; reflexivity. }
  destruct (A l Hl) as (d & L & (E1 & E2 & E3 & E4 & _ & E5 & _) & E6). destruct (A l' Hl') as (d' & L' & (F1 & F2 & F3 & F4 & _ & F5 & _) & F6).
  assert (Q : forall n, of n (map (fun s => (s, alone env h s)) l') = of n (map (fun s => (s, alone env h s)) l)) by (intros n; rewrite !O; f_equal; apply Same).
  exists d, d'. split; [exact L|]. split; [exact L'|]. rewrite E1, E2, E3, E4, E5, E6, F1, F2, F3, F4, F5, F6, !Q. repeat (split; [reflexivity|]). reflexivity.
Qed.
Print Assumptions C64_any_order.
Example C64_order_case : let l := sections_here in let l' := [a_classes; an_entities; an_entities; an_objects; a_blocks; a_tables] in
  (forall n, filter (fun s => seqb (fst s) n) l' = filter (fun s => seqb (fst s) n) l) /\ l' <> l.
Proof.
  cbv zeta. split; [|discriminate]. intros n. unfold sections_here. cbn [filter].
  destruct (seqb (fst an_entities) n) eqn:E1, (seqb (fst a_classes) n) eqn:E2, (seqb (fst an_objects) n) eqn:E3, (seqb (fst a_blocks) n) eqn:E4, (seqb (fst a_tables) n) eqn:E5; try reflexivity; exfalso;
    repeat match goal with H : seqb _ n = true |- _ => apply seqb_eq in H end; repeat match goal with H : fst _ = n, K : fst _ = n |- _ => rewrite <- H in K; discriminate K end.
Qed.

(** To the layers it does make a difference: an entity that comes before the layer it is on adds one of that name, and the one of the table is added to it. *)
Theorem C64_tables_last_refuted : exists h l l' d d', header_part h /\ (forall n, filter (fun s => seqb (fst s) n) l' = filter (fun s => seqb (fst s) n) l) /\
  load idle env0 (map Ok (file_of_sections (h ++ l))) = Ok d /\ load idle env0 (map Ok (file_of_sections (h ++ l'))) = Ok d' /\
  map ti_name (dr_layers d) = [str "A"; str "0"] /\ map ti_name (dr_layers d') = [str "A"; str "0"; str "A"].
Proof.
  assert (X : forall l, match load idle env0 (map Ok (file_of_sections l)) with Ok d => true | Err _ => false end = true -> exists d, load idle env0 (map Ok (file_of_sections l)) = Ok d) by (intros l H; destruct (load _ _ _) as [d|e]; [exists d; reflexivity|discriminate H]).
  destruct (X [a_header; a_tables; an_entities] ltac:(vm_compute; reflexivity)) as (d & E). destruct (X [a_header; an_entities; a_tables] ltac:(vm_compute; reflexivity)) as (d' & E').
  exists [a_header], [a_tables; an_entities], [an_entities; a_tables], d, d'. split; [right; exists a_header; split; [reflexivity|]; split; [reflexivity|apply closedb_sound; reflexivity]|]. split.
  { intros n. cbn [filter]. destruct (seqb (fst an_entities) n) eqn:E1, (seqb (fst a_tables) n) eqn:E2; try reflexivity. apply seqb_eq in E1, E2. rewrite <- E1 in E2. discriminate E2. }
  split; [exact E|]. split; [exact E'|]. split.
  - assert (Y : match load idle env0 (map Ok (file_of_sections [a_header; a_tables; an_entities])) with Ok d => map ti_name (dr_layers d) | Err _ => [] end = [str "A"; str "0"]) by (vm_compute; reflexivity). rewrite E in Y. exact Y.
  - assert (Y : match load idle env0 (map Ok (file_of_sections [a_header; an_entities; a_tables])) with Ok d => map ti_name (dr_layers d) | Err _ => [] end = [str "A"; str "0"; str "A"]) by (vm_compute; reflexivity). rewrite E' in Y. exact Y.
Qed.
Print Assumptions C64_tables_last_refuted.

(** Loaded drawings can be written: classes, blocks, the header, thumbnails; what the readers of sections do to a drawing. *)
From Verif Require Import Base StreamModel VersionModel SpecModel SpecSpec SpecProofs SpecCheck FileModel CustomModel DrawingModel HeaderModel HeaderData HeaderProofs ThumbnailModel EntityData ObjectData TableData
  SectionData SaveModel StorableProofs.
Open Scope string_scope.
Open Scope list_scope.
Open Scope Z_scope.
Set Default Goal Selector "!".

(** * Classes *)
Definition class_D : list (string * shape) := needs (sp_cmds (it_spec class_old)) ++ needs (sp_cmds (it_spec class_new)).
Definition class_ok (c : list (string * fval)) : Prop := fulfils class_D (of_fields c).
Lemma class_check : checked class_D class_old && checked class_D class_new && covered class_D [] (map fst class_defaults) [] [] && slot_asks class_D "record_name" (leq SStr)
  && forallb multi_full (sp_cmds (it_spec class_old)) && forallb multi_full (sp_cmds (it_spec class_new)) = true.
Proof. vm_compute. reflexivity. Qed.
Lemma class_reads v typ it c r : read_class v typ it = Ok (c, r) -> class_ok c.
Proof.
  unfold read_class. pose proof class_check as C. do 5 (apply andb_true_iff in C; destruct C as [C ?]).
  destruct (read_item (it_spec (class_type v)) it) as [[[st|] r']|] eqn:E; cbn [bind]; try discriminate. intros [= <- <-].
  assert (F : fulfils class_D st) by (unfold class_type in E; destruct (version_leb v R13); refine (checked_reads _ _ _ _ _ _ E); assumption).
  unfold class_ok. rewrite <- (app_nil_r (to_fields _ _ _)). refine (packed class_D [] (map fst class_defaults) [] [] [] class_defaults [] (if version_leb v R13 then upd st "record_name" (FStr typ) else st) _ eq_refl (Forall2_nil _) (Forall2_nil _) _); [assumption|].
  destruct (version_leb v R13); [|exact F]. apply fulfils_upd; [|exact F]. intros sh Hs. refine (leq_sound SStr sh (FStr typ) (slot_asks_sound _ _ _ _ _ Hs) eq_refl). assumption.
Qed.
Lemma classes_read fuel : forall v it l r, read_classes_fuel fuel v it = Ok (l, r) -> Forall class_ok l.
Proof.
  induction fuel as [|f IH]; intros v it l r; [discriminate|]. cbn [read_classes_fuel]. destruct it as [|[p|x] it']; [discriminate| |discriminate]. destruct (p_code p =? 0); [|apply IH].
  destruct (assert_string p) as [s|x]; cbn [bind]; [|discriminate]. destruct (seqb s (str "ENDSEC")); [intros [= <- <-]; constructor|].
  destruct (read_class v s it') as [[c r']|] eqn:E; cbn [bind]; [|discriminate]. destruct (read_classes_fuel f v r') as [[l' r'']|] eqn:E2; cbn [bind]; [|discriminate]. intros [= <- <-]. constructor; [exact (class_reads _ _ _ _ _ E)|exact (IH _ _ _ _ E2)].
Qed.
Lemma class_writes v c : class_ok c -> exists ps, write_class v c = Ok ps.
Proof.
  intros F. unfold class_ok, class_D in F. apply fulfils_app in F as [F1 F2]. pose proof class_check as C. apply andb_true_iff in C as [C C2]. apply andb_true_iff in C as [_ C1]. unfold write_class, write_item, class_type.
  destruct (version_leb v R13); [destruct (cmds_ok v true _ _ C1 F1) as [ps ->]|destruct (cmds_ok v true _ _ C2 F2) as [ps ->]]; cbn [bind]; eauto.
Qed.
Lemma classes_write v l : Forall class_ok l -> exists ps, write_classes v l = Ok ps.
Proof.
  intros H. unfold write_classes. destruct l as [|c l]; [eauto|]. destruct (concat_res_ok (map (write_class v) (c :: l))) as [ps ->]; [|cbn [bind]; eauto]. rewrite Forall_map. revert H. apply Forall_impl. intros x. apply class_writes.
Qed.

(** * Blocks *)
Definition endblk_cmds : list cmd :=
    [WConst [] (FileModel.zero "ENDBLK");
     WPair [CHandles; CNe [("handle", FHandle 0)]] 5 "handle" WHandle;
     WExts [CMin R14] "extension_data_groups";
     WPair [CMin R2000; CNe [("__owner_handle", FHandle 0)]] 330 "__owner_handle" WHandle;
     WConst [CMin R13] (mk_pair 100 (VStr (str "AcDbEntity")));
     WPair [CTrue "is_in_paperspace"] 67 "is_in_paperspace" WAsI16;
     WPair [] 8 "layer" WStr;
     WConst [CMin R13] (mk_pair 100 (VStr (str "AcDbBlockEnd")));
     WXdatas [] "x_data"].
Definition block_D : list (string * shape) := needs (sp_cmds (it_spec block_head)) ++ needs endblk_cmds.
Definition block_promises : list (string * (shape -> bool)) := [("handle", any_handle); ("layer", any_str); ("name", any_str)].
Lemma block_check : supplies block_D (it_spec block_head) && covered block_D block_promises (map fst (sp_defaults (it_spec block_head))) ["handle"; "layer"; "name"] [] && forallb multi_full (sp_cmds (it_spec block_head)) && forallb multi_full endblk_cmds = true.
Proof. vm_compute. reflexivity. Qed.
Definition block_ok (b : block) : Prop := fulfils block_D (block_store b) /\ Forall ent_ok (bl_entities b).
Lemma block_reads fuel : forall st es it b r, fulfils block_D st -> Forall ent_ok es -> read_block_fuel fuel st es it = Ok (b, r) -> block_ok b.
Proof.
  pose proof block_check as C. do 3 (apply andb_true_iff in C; destruct C as [C ?]). assert (S : arms_supply block_D (sp_arms (it_spec block_head)) = true) by (unfold supplies in C; do 2 (apply andb_true_iff in C; destruct C as [C ?]); assumption).
  induction fuel as [|f IH]; intros st es it b r F G; [discriminate|]. cbn [read_block_fuel]. destruct (run _ false (Datatypes.S (length it)) it st []) as [[[st1 regs] r1]|] eqn:E; cbn [bind fst]; [|discriminate].
  pose proof (run_fulfils _ _ _ S _ _ _ _ _ _ _ F E) as F1. destruct r1 as [|[p|x] r2]; [discriminate| |discriminate]. destruct (is_zero "ENDBLK" p).
  - destruct (skip_item r2) as [r3|]; cbn [bind]; [|discriminate]. intros [= <- <-]. split; [|exact G]. unfold block_store, block_of. cbn [bl_handle bl_layer bl_name bl_fields]. rewrite <- (app_nil_r (to_fields _ _ _)).
    refine (packed _ block_promises _ _ [] [("handle", _); ("layer", _); ("name", _)] _ [] _ _ eq_refl _ (Forall2_nil _) F1); [assumption|]. constructor; [apply promise_handle|]. constructor; [apply promise_str|]. constructor; [apply promise_str|constructor].
  - destruct (collect (Ok p :: r2)) as [[l r3]|] eqn:E2; cbn [bind]; [|discriminate]. refine (IH _ _ _ _ _ F1 _). apply Forall_app. split; [exact G|]. refine (collect_ok _ _ _ _ _ E2). exact Logic.I.
Qed.
Lemma block_writes v wh b : block_ok b -> exists ps, write_block v wh b = Ok ps.
Proof.
  intros [F G]. unfold block_D in F. apply fulfils_app in F as [F1 F2]. pose proof block_check as C. apply andb_true_iff in C as [C C2]. apply andb_true_iff in C as [_ C1]. unfold write_block, write_item.
  destruct (cmds_ok v wh _ _ C1 F1) as [a ->]. cbn [bind]. destruct (entities_write v wh _ G) as [e ->]. cbn [bind]. change (write_endblk v wh (block_store b)) with (write_cmds v wh (block_store b) endblk_cmds).
  destruct (cmds_ok v wh _ _ C2 F2) as [c ->]. cbn [bind]. eauto.
Qed.
Lemma blocks_write v wh l : Forall block_ok l -> exists ps, write_blocks v wh l = Ok ps.
Proof.
  intros H. unfold write_blocks. destruct l as [|c l]; [eauto|]. destruct (concat_res_ok (map (write_block v wh) (c :: l))) as [ps ->]; [|cbn [bind]; eauto]. rewrite Forall_map. revert H. apply Forall_impl. intros x. apply block_writes.
Qed.
Lemma block_like b h l es : block_ok b -> Forall ent_ok es -> block_ok (mk_block h l (bl_name b) es (bl_fields b)).
Proof.
  intros [F _] G. split; [|exact G]. revert F. apply fulfils_alike. unfold block_store. cbn [bl_handle bl_layer bl_name bl_fields]. apply alike_fields. constructor; [split; [reflexivity|apply alike_handles]|]. constructor; [split; [reflexivity|apply alike_strs]|]. apply alike_same.
Qed.

(** * The header *)
Definition hwneed (w : hwrite) : list shape := match w with HW w => [wneed w] | HWVersion => [] | HWUuid | HWDate | HWDuration | HWClip => [SInt] | HWI16ofF64 => [SF64] end.
Definition header_D : list (string * shape) := flat_map (fun c => flat_map (fun p => match p with (_, s, w) => map (fun sh => (s, sh)) (hwneed w) end) (hc_parts c)) (hs_cmds header_spec).
Definition hrgives (r : hread) : shape := match r with HR r => rgives r | _ => SInt end.
Definition setter_supplies (D : list (string * shape)) (x : hsetter) : bool :=
  match x with
  | HOne _ s r => slot_asks D s (leq (hrgives r))
  | HMany arms => forallb (fun a => match a with (_, s, r) => slot_asks D s (leq (hrgives r)) end) arms
  | HPoint s => forallb (fun t => slot_asks D t (leq SF64)) [(s ++ ".x")%string; (s ++ ".y")%string; (s ++ ".z")%string]
  end.
Definition header_promises : list (string * (shape -> bool)) :=
  [("next_available_handle", any_handle); ("default_text_height", says (FF64 0)); ("trace_width", says (FF64 0)); ("text_style", any_str); ("current_layer", any_str); ("current_entity_line_type", any_str);
   ("dimension_style_name", any_str); ("file_name", any_str)] ++ map (fun s => (s, any_str)) ucs_slots.
Lemma header_check : forallb (fun x => setter_supplies header_D (snd x)) (hs_setters header_spec) &&
  covered header_D header_promises (map fst header_all) header_slots [] &&
  forallb (fun x => match x with (s, sh) => if existsb (String.eqb s) (hs_random header_spec) then leq SInt sh else match assoc_slot s (hs_defaults header_spec) with Some v => shaped sh v | None => shaped sh (FInt 0) end end) header_D = true.
Proof. vm_compute. reflexivity. Qed.
Definition header_ok (h : header) : Prop := fulfils header_D (header_store h).
Definition env_ok (env : store) : Prop := forall s, In s (hs_random header_spec) -> exists z, env s = FInt z.
Lemma header_default_ok env : env_ok env -> fulfils header_D (header_default header_spec env).
Proof.
  intros E s sh Hin. pose proof header_check as C. apply andb_true_iff in C as [_ C]. rewrite forallb_forall in C. specialize (C _ Hin). cbn beta iota in C. unfold header_default.
  destruct (existsb (String.eqb s) (hs_random header_spec)) eqn:R.
  - apply existsb_exists in R as (y & Hy & Q). apply String.eqb_eq in Q as <-. destruct (E _ Hy) as [z ->]. exact (leq_sound _ _ (FInt z) C eq_refl).
  - destruct (assoc_slot s (hs_defaults header_spec)); exact C.
Qed.
Lemma hrgives_sound r p v : apply_hr r p = Ok v -> shaped (hrgives r) v = true.
Proof.
  destruct r; cbn [apply_hr hrgives]; [apply rgives_sound|..]; intros H; repeat match type of H with bind ?m _ = Ok _ => destruct m; cbn [bind] in H; [|discriminate H] end; injection H as <-; reflexivity.
Qed.
Lemma set_value_ok name p h h' : fulfils header_D h -> set_header_value header_spec name p h = Ok h' -> fulfils header_D h'.
Proof.
  intros F. unfold set_header_value. destruct (assoc_str name (hs_setters header_spec)) as [x|] eqn:A; [|intros [= <-]; exact F]. destruct (harm_of x (p_code p)) as [[s r]|] eqn:Ha; [|discriminate].
  destruct (apply_hr r p) as [v|] eqn:E; cbn [bind]; [|discriminate]. intros [= <-]. apply fulfils_upd; [|exact F]. intros sh Hs. destruct (assoc_str_In _ _ _ A) as [k K].
  pose proof header_check as C. apply andb_true_iff in C as [C _]. apply andb_true_iff in C as [C _]. rewrite forallb_forall in C. specialize (C _ K). cbn [snd] in C.
  refine (leq_sound (hrgives r) sh v _ (hrgives_sound _ _ _ E)). apply (slot_asks_sound header_D s); [|exact Hs]. clear - C Ha. destruct x as [c t q|arms|t]; cbn [harm_of setter_supplies] in *.
  - destruct (c =? p_code p); [|discriminate Ha]. injection Ha as <- <-. exact C.
  - induction arms as [|[[c t] q] arms IH]; cbn [find_harm forallb] in *; [discriminate Ha|]. apply andb_true_iff in C as [C1 C2]. destruct (c =? p_code p); [injection Ha as <- <-; exact C1|exact (IH Ha C2)].
  - cbn [forallb] in C. apply andb_true_iff in C as [C1 C]. apply andb_true_iff in C as [C2 C]. apply andb_true_iff in C as [C3 _]. unfold point_slot in Ha.
    destruct (p_code p =? 10); [injection Ha as <- <-; exact C1|]. destruct (p_code p =? 20); [injection Ha as <- <-; exact C2|]. destruct (p_code p =? 30); [injection Ha as <- <-; exact C3|discriminate Ha].
Qed.
Lemma header_loop_ok : forall it sw cur h h' u r, (forall k h0 r0 h1 u1 r1, sw = Some k -> fulfils header_D h0 -> k h0 r0 = Ok (h1, u1, r1) -> fulfils header_D h1) ->
  fulfils header_D h -> header_loop header_spec sw cur h it = Ok (h', u, r) -> fulfils header_D h'.
Proof.
  induction it as [|[p|e] it IH]; intros sw cur h h' u r K F; cbn [header_loop]; [intros [= <- _ _]; exact F| |discriminate]. destruct (p_code p =? 0); [intros [= <- _ _]; exact F|]. destruct (p_code p =? 9).
  - destruct (assert_string p) as [s|]; cbn [bind]; [|discriminate]. exact (IH _ _ _ _ _ _ K F).
  - destruct cur as [name|]; [|discriminate]. destruct (set_header_value header_spec name p h) as [h1|] eqn:E; cbn [bind]; [|discriminate]. pose proof (set_value_ok _ _ _ _ F E) as F1.
    destruct (seqb name (str "$ACADVER") && version_leb R2007 (version_of (h1 "version"))); [|exact (IH _ _ _ _ _ _ K F1)]. destruct sw as [k|]; [exact (K _ _ _ _ _ _ eq_refl F1)|exact (IH _ _ _ _ _ _ K F1)].
Qed.
Lemma header_reads sw u env it h u' r : env_ok env -> read_header header_spec sw u env it = Ok (h, u', r) -> fulfils header_D h.
Proof.
  intros E. unfold read_header. apply header_loop_ok; [|exact (header_default_ok _ E)]. intros k h0 r0 h1 u1 r1. destruct u; [discriminate|]. intros [= <-] F. apply header_loop_ok; [discriminate|exact F].
Qed.
Lemma promise_double s d : kept_promise (s, says (FF64 0)) (s, FF64 d).
Proof. split; [reflexivity|]. intros sh H. cbn [snd] in *. destruct sh; first [discriminate H|reflexivity|exact H]. Qed.
Lemma header_of_ok st : fulfils header_D st -> header_ok (header_of st).
Proof.
  intros F. pose proof header_check as C. apply andb_true_iff in C as [C _]. apply andb_true_iff in C as [_ C]. unfold header_ok, header_store, header_of.
  cbn [hd_next hd_text_height hd_trace_width hd_text_style hd_current_layer hd_line_type hd_dim_style hd_file_name hd_ucs hd_fields]. rewrite <- (app_nil_r (to_fields _ _ _)).
  match goal with |- fulfils _ (of_fields (?a :: ?b :: ?c :: ?d :: ?e :: ?f :: ?g :: ?i :: ?m ++ _)) => refine (packed header_D header_promises (map fst header_all) header_slots [] (a :: b :: c :: d :: e :: f :: g :: i :: m) header_all [] st C eq_refl _ (Forall2_nil _) F) end.
  unfold header_promises. cbn [app]. constructor; [apply promise_handle|]. do 2 (constructor; [apply promise_double|]). do 5 (constructor; [apply promise_str|]).
  induction ucs_slots as [|s l IH]; cbn [map combine]; constructor; [apply promise_str|exact IH].
Qed.
Lemma header_next_ok n h : header_ok h -> header_ok (set_next n h).
Proof. destruct h. unfold header_ok. apply fulfils_alike. apply alike_fields. cbn. constructor; [split; [reflexivity|apply alike_handles]|]. apply alike_same. Qed.
Lemma alike_doubles a b : alike (FF64 a) (FF64 b).
Proof. intros sh. destruct sh; reflexivity. Qed.
Lemma header_norm_ok h : header_ok h -> header_ok (norm_header h).
Proof.
  destruct h. unfold header_ok. apply fulfils_alike. apply alike_fields. cbn. constructor; [split; [reflexivity|apply alike_handles]|]. do 2 (constructor; [split; [reflexivity|apply alike_doubles]|]). do 5 (constructor; [split; [reflexivity|apply alike_strs]|]). apply alike_same.
Qed.
Lemma hw_ok w v : Forall (fun sh => shaped sh v = true) (hwneed w) -> exists x, apply_hw w v = Ok x.
Proof.
  intros H. destruct w; cbn [hwneed apply_hw] in *; [inversion H; subst; apply apply_w_ok; assumption|eauto|..]; inversion H as [|? ? H1 _]; subst; destruct v; try discriminate H1; eauto.
Qed.
Lemma header_writes h : header_ok h -> exists ps, write_header header_spec (header_store h) = Ok ps.
Proof.
  unfold header_ok, write_header, header_D. set (st := header_store h). clearbody st. induction (hs_cmds header_spec) as [|c l IH]; intros F; cbn [write_hcmds flat_map] in *; [eauto|]. apply fulfils_app in F as [F1 F2]. destruct (IH F2) as [b ->].
  assert (P : exists a, write_hparts st (hc_parts c) = Ok a).
  { clear - F1. induction (hc_parts c) as [|[[k s] w] q IHq]; cbn [write_hparts flat_map] in *; [eauto|]. apply fulfils_app in F1 as [G1 G2]. destruct (IHq G2) as [b ->].
    destruct (hw_ok w (st s)) as [x ->]; [|cbn [bind]; eauto]. apply Forall_forall. intros sh Hs. apply (G1 s sh). apply in_map_iff. exists sh. split; [reflexivity|exact Hs]. }
  destruct P as [a P]. unfold write_hcmd. rewrite P. cbn [bind]. destruct (all_hold _ _ _ _); cbn [bind]; eauto.
Qed.

(** * Thumbnails *)
Definition thumb_ok (t : option bytes) : Prop := match t with Some b => (14 <= length b)%nat | None => True end.
Lemma set_i32_length data k v data' : set_i32 data k v = Ok data' -> (k + 4 <= length data)%nat /\ length data' = length data.
Proof.
  unfold set_i32, four_bytes. destruct (skipn k data) as [|a [|b [|c [|e r]]]] eqn:E; try discriminate. intros [= <-]. pose proof (skipn_length k data) as L. rewrite E in L. cbn [length] in L.
  split; [lia|]. rewrite app_length, firstn_length. cbn [length app]. rewrite skipn_length. lia.
Qed.
Lemma thumb_reads it t r : read_thumbnail it = Ok (t, r) -> thumb_ok t.
Proof.
  unfold read_thumbnail. destruct (read_thumbnail_bytes it) as [[[data|] r']|]; cbn [bind]; [|intros [= <- <-]; exact Logic.I|discriminate]. destruct (update_data_offset data) as [[ok data']|] eqn:E; cbn [bind]; [|discriminate]. intros [= <- <-].
  destruct ok; [|exact Logic.I]. cbn [thumb_ok]. unfold update_data_offset in E. destruct (ThumbnailModel.read_i32 data 14) as [a|]; cbn [bind] in E; [|discriminate E]. destruct (36 <=? ThumbnailModel.as_usize a)%N; [|discriminate E]. destruct (ThumbnailModel.read_u32 data 46); cbn [bind] in E; [|discriminate E].
  destruct (2 ^ 64 <=? _)%N; [discriminate E|]. destruct (set_i32 _ _ _) as [x|] eqn:S; cbn [bind] in E; [|discriminate E]. injection E as <-. apply set_i32_length in S. lia.
Qed.
Lemma thumb_writes v t : thumb_ok t -> exists ps, write_thumbnail v t = Ok ps.
Proof. unfold write_thumbnail. destruct t as [b|]; [|eauto]. cbn [thumb_ok]. intros H. destruct (version_leb R2000 v); [|eauto]. destruct (Nat.ltb_spec (length b) 14); [lia|]. eauto. Qed.

(** * Drawings *)
Record sound (d : drawing) : Prop := mk_sound {
  so_header : header_ok (dr_header d);
  so_classes : Forall class_ok (dr_classes d);
  so_tables : forall k, Forall (titem_ok k) (tget k d);
  so_blocks : Forall block_ok (dr_blocks d);
  so_entities : Forall ent_ok (dr_entities d);
  so_objects : Forall obj_ok (dr_objects d);
  so_thumb : thumb_ok (dr_thumbnail d) }.
Lemma sound_header h d : sound d -> header_ok h -> sound (set_header h d).
Proof. intros [H1 H2 H3 H4 H5 H6 H7] H. destruct d. split; cbn in *; auto. Qed.
Lemma sound_classes l d : sound d -> Forall class_ok l -> sound (set_classes l d).
Proof. intros [H1 H2 H3 H4 H5 H6 H7] H. destruct d. split; cbn in *; auto. Qed.
Lemma sound_blocks l d : sound d -> Forall block_ok l -> sound (set_blocks l d).
Proof. intros [H1 H2 H3 H4 H5 H6 H7] H. destruct d. split; cbn in *; auto. Qed.
Lemma sound_entities l d : sound d -> Forall ent_ok l -> sound (set_entities l d).
Proof. intros [H1 H2 H3 H4 H5 H6 H7] H. destruct d. split; cbn in *; auto. Qed.
Lemma sound_objects l d : sound d -> Forall obj_ok l -> sound (set_objects l d).
Proof. intros [H1 H2 H3 H4 H5 H6 H7] H. destruct d. split; cbn in *; auto. Qed.
Lemma sound_thumb t d : sound d -> thumb_ok t -> sound (set_thumbnail t d).
Proof. intros [H1 H2 H3 H4 H5 H6 H7] H. destruct d. split; cbn in *; auto. Qed.
Lemma sound_table k l d : sound d -> Forall (titem_ok k) l -> sound (tset k l d).
Proof.
  intros [H1 H2 H3 H4 H5 H6 H7] H. destruct d. split; [destruct k; exact H1|destruct k; exact H2| |destruct k; exact H4|destruct k; exact H5|destruct k; exact H6|destruct k; exact H7].
  intros k'. specialize (H3 k'). destruct k, k'; cbn [tset tget] in *; assumption.
Qed.
Lemma sound_next d : sound d -> sound (snd (next_handle d)).
Proof. intros H. apply sound_header; [exact H|]. apply header_next_ok. exact (so_header _ H). Qed.
Lemma sound_push_item k x d : sound d -> titem_ok k x -> sound (push_item k x d).
Proof. intros H X. apply sound_table; [exact H|]. apply Forall_app. split; [exact (so_tables _ H k)|constructor; [exact X|constructor]]. Qed.
Lemma sound_add_plain k x d : sound d -> titem_ok k x -> sound (add_plain k x d).
Proof. intros H X. unfold add_plain. pose proof (sound_next _ H) as N. destruct (next_handle d) as [h d1]. apply sound_push_item; [exact N|apply titem_give, X]. Qed.
Lemma sound_ensure_plain k n d : sound d -> sound (ensure_plain k n d).
Proof. intros H. unfold ensure_plain. destruct (has_name k n d); [exact H|]. apply sound_add_plain; [exact H|apply titem_default]. Qed.
Lemma sound_push_layer x d : sound d -> titem_ok TLayer x -> sound (push_layer x d).
Proof. intros H X. apply sound_push_item; [apply sound_ensure_plain, H|exact X]. Qed.
Lemma sound_add_layer x d : sound d -> titem_ok TLayer x -> sound (add_layer x d).
Proof. intros H X. unfold add_layer. pose proof (sound_next _ H) as N. destruct (next_handle d) as [h d1]. apply sound_push_layer; [exact N|apply titem_give, X]. Qed.
Lemma sound_ensure k n d : sound d -> sound (ensure k n d).
Proof. intros H. destruct k; try apply (sound_ensure_plain _ _ _ H). cbn [ensure]. unfold ensure_layer. destruct (has_name TLayer n d); [exact H|]. apply sound_add_layer; [exact H|apply titem_default]. Qed.
Lemma sound_ensure_all k l : forall d, sound d -> sound (ensure_all k l d).
Proof. induction l as [|n l IH]; intros d H; [exact H|]. cbn [ensure_all fold_left]. apply IH, sound_ensure, H. Qed.
Lemma sound_put_titem k d x : sound d -> titem_ok k x -> sound (put_titem k d x).
Proof.
  intros H X. unfold put_titem. destruct (ti_handle x =? 0)%N.
  - destruct k; try apply (sound_add_plain _ _ _ H X). apply (sound_add_layer _ _ H X).
  - destruct k; try apply (sound_push_item _ _ _ H X). apply (sound_push_layer _ _ H X).
Qed.
Lemma sound_push_object o d : sound d -> obj_ok o -> sound (push_object o d).
Proof.
  intros H O. unfold push_object.
  assert (A : sound (match ob_specific o with OLayerFilter l | OLayerIndex l => ensure_all TLayer l d | _ => d end)) by (destruct (ob_specific o); first [exact H|apply sound_ensure_all, H]).
  revert A. generalize (match ob_specific o with OLayerFilter l | OLayerIndex l => ensure_all TLayer l d | _ => d end). clear H d. intros d H.
  assert (A : sound (match ob_specific o with OMLineStyle n => ensure TStyle n (ensure TLineType n d) | _ => d end)) by (destruct (ob_specific o); first [exact H|apply sound_ensure, sound_ensure, H]).
  revert A. generalize (match ob_specific o with OMLineStyle n => ensure TStyle n (ensure TLineType n d) | _ => d end). clear H d. intros d H.
  assert (A : sound (match ob_specific o with OPlotSettings v => ensure TView v d | _ => d end)) by (destruct (ob_specific o); first [exact H|apply sound_ensure, H]).
  revert A. generalize (match ob_specific o with OPlotSettings v => ensure TView v d | _ => d end). clear H d. intros d H.
  apply sound_objects; [exact H|]. apply Forall_app. split; [exact (so_objects _ H)|constructor; [exact O|constructor]].
Qed.
Lemma sound_add_object o d : sound d -> obj_ok o -> sound (add_object o d).
Proof. intros H O. unfold add_object. pose proof (sound_next _ H) as N. destruct (next_handle d) as [h d1]. apply sound_push_object; [exact N|apply object_given, O]. Qed.
Lemma sound_put_object d o : sound d -> obj_ok o -> sound (put_object d o).
Proof. intros H O. unfold put_object. destruct (ob_handle o =? 0)%N; [apply sound_add_object|apply sound_push_object]; assumption. Qed.
Lemma sound_mline_style n d : sound d -> sound (ensure_mline_style n d).
Proof. intros H. unfold ensure_mline_style. destruct (existsb _ _); [exact H|]. apply sound_add_object; [exact H|apply mline_style_ok]. Qed.
Lemma sound_push_entity e d : sound d -> ent_ok e -> sound (push_entity e d).
Proof.
  intros H E. unfold push_entity.
  assert (A : sound (match en_specific e with EMLine s => ensure_mline_style s d | _ => d end)) by (destruct (en_specific e); first [exact H|apply sound_mline_style, H]).
  revert A. generalize (match en_specific e with EMLine s => ensure_mline_style s d | _ => d end). clear H d. intros d H.
  assert (A : sound (match en_specific e with EDimStyled _ s => ensure TDimStyle s d | _ => d end)) by (destruct (en_specific e); first [exact H|apply sound_ensure, H]).
  revert A. generalize (match en_specific e with EDimStyled _ s => ensure TDimStyle s d | _ => d end). clear H d. intros d H.
  pose proof (sound_ensure TLineType (en_line_type e) _ (sound_ensure TLayer (en_layer e) _ H)) as H2. revert H2. generalize (ensure TLineType (en_line_type e) (ensure TLayer (en_layer e) d)). clear H d. intros d H.
  assert (A : sound (match en_specific e with ETextStyled _ s => ensure TStyle s d | _ => d end)) by (destruct (en_specific e); first [exact H|apply sound_ensure, H]).
  revert A. generalize (match en_specific e with ETextStyled _ s => ensure TStyle s d | _ => d end). clear H d. intros d H.
  apply sound_entities; [exact H|]. apply Forall_app. split; [exact (so_entities _ H)|constructor; [exact E|constructor]].
Qed.
Lemma sound_give_children l : forall d, sound d -> sound (snd (give_children l d)).
Proof.
  induction l as [|[f h] l IH]; intros d H; cbn [give_children]; [exact H|].
  assert (A : sound (snd (if (h =? auto_replace)%N then next_handle d else (h, d)))) by (destruct (_ =? _)%N; [exact (sound_next _ H)|exact H]).
  destruct (if (h =? auto_replace)%N then next_handle d else (h, d)) as [h' d1]. specialize (IH d1 A). destruct (give_children l d1) as [r d2]. exact IH.
Qed.
Lemma sound_number e d : sound d -> sound (snd (number_entity e d)).
Proof.
  intros H. unfold number_entity. pose proof (sound_next _ H) as H1. destruct (next_handle d) as [h d1]. cbn [snd] in H1. destruct (en_specific e) as [q l|q l| | | |]; try exact H1.
  - pose proof (sound_next _ H1) as H2. destruct (next_handle d1) as [q' d2]. pose proof (sound_give_children l _ H2) as H3. cbn [snd] in *. destruct (give_children l d2). exact H3.
  - pose proof (sound_next _ H1) as H2. destruct (next_handle d1) as [q' d2]. pose proof (sound_give_children l _ H2) as H3. cbn [snd] in *. destruct (give_children l d2). exact H3.
Qed.
Lemma sound_add_entity e d : sound d -> ent_ok e -> sound (add_entity e d).
Proof. intros H E. unfold add_entity. pose proof (sound_number e _ H) as H1. pose proof (number_ok e d E) as E1. destruct (number_entity e d) as [e' d']. exact (sound_push_entity _ _ H1 E1). Qed.
Lemma sound_put_entities l : forall d, sound d -> Forall ent_ok l -> sound (fold_left put_entity l d).
Proof.
  induction l as [|e l IH]; intros d H F; [exact H|]. inversion F; subst. cbn [fold_left]. apply IH; [|assumption]. unfold put_entity. destruct (en_handle e =? 0)%N; [apply sound_add_entity|apply sound_push_entity]; assumption.
Qed.
Lemma sound_members l : forall d, sound d -> sound (snd (number_members l d)).
Proof.
  induction l as [|e l IH]; intros d H; cbn [number_members]; [exact H|]. pose proof (sound_next _ H) as H1. destruct (next_handle d) as [h d1]. specialize (IH d1 H1). destruct (number_members l d1) as [r d2]. exact IH.
Qed.
Lemma sound_push_block b d : sound d -> block_ok b -> sound (push_block b d).
Proof.
  intros H B. unfold push_block.
  pose proof (sound_add_plain TBlockRecord (default_item TBlockRecord (bl_name b)) _ (sound_ensure_all TLineType (map en_line_type (bl_entities b)) _ (sound_ensure_all TLayer (bl_layer b :: map en_layer (bl_entities b)) _ H)) (titem_default _ _)) as H1.
  revert H1. generalize (add_plain TBlockRecord (default_item TBlockRecord (bl_name b)) (ensure_all TLineType (map en_line_type (bl_entities b)) (ensure_all TLayer (bl_layer b :: map en_layer (bl_entities b)) d))). clear H d. intros d H.
  pose proof (sound_members (bl_entities b) _ H) as H2. pose proof (members_ok (bl_entities b) d (proj2 B)) as M. destruct (number_members (bl_entities b) d) as [es d']. cbn [fst snd] in *.
  apply sound_blocks; [exact H2|]. apply Forall_app. split; [exact (so_blocks _ H2)|]. constructor; [exact (block_like b _ _ es B M)|constructor].
Qed.
Lemma sound_put_block d b : sound d -> block_ok b -> sound (put_block d b).
Proof.
  intros H B. unfold put_block. destruct (bl_handle b =? 0)%N; [|apply sound_push_block; assumption]. unfold add_block. pose proof (sound_next _ H) as N. destruct (next_handle d) as [h d1]. apply sound_push_block; [exact N|]. exact (block_like b _ _ _ B (proj2 B)).
Qed.

(** * Sections *)
Lemma sound_read_objects fuel : forall d it d' r, sound d -> read_objects_fuel fuel d it = Ok (d', r) -> sound d'.
Proof.
  induction fuel as [|f IH]; intros d it d' r H; [discriminate|]. cbn [read_objects_fuel]. destruct (swallow read_object it) as [[[o|] r']|] eqn:E; cbn [bind]; [|intros [= <- <-]; exact H|discriminate]. apply IH. apply sound_put_object; [exact H|].
  unfold swallow in E. destruct (read_object it) as [[o' r1]|x] eqn:E1; [injection E as -> <-; exact (object_reads _ _ _ _ E1)|]. destruct x; discriminate E.
Qed.
Lemma sound_read_table_fuel fuel : forall k d it d' r, sound d -> read_table_fuel fuel k d it = Ok (d', r) -> sound d'.
Proof.
  induction fuel as [|f IH]; intros k d it d' r H; [discriminate|]. cbn [read_table_fuel]. destruct it as [|[p|x] it']; [discriminate| |discriminate]. destruct (p_code p =? 0); [|apply IH, H]. destruct (assert_string p) as [s|]; cbn [bind]; [|discriminate].
  destruct (seqb s (table_type k)); [|intros [= <- <-]; exact H]. destruct (read_item (it_spec (table_spec k)) it') as [[[st|] r']|] eqn:E; cbn [bind]; try discriminate. apply IH. apply sound_put_titem; [exact H|]. exact (titem_reads _ _ _ _ E).
Qed.
Lemma sound_read_table d it d' r : sound d -> read_table d it = Ok (d', r) -> sound d'.
Proof.
  intros H. unfold read_table. destruct it as [|[p|x] it']; [discriminate| |discriminate]. destruct (p_code p =? 2); [|discriminate]. destruct (assert_string p) as [s|]; cbn [bind]; [|discriminate]. destruct (table_of_name s) as [k|].
  - destruct (read_table_fuel _ k d it') as [[d1 r1]|] eqn:E; cbn [bind]; [|discriminate]. destruct (expect _ _); cbn [bind]; [|discriminate]. intros [= <- <-]. exact (sound_read_table_fuel _ _ _ _ _ _ H E).
  - destruct (swallow_table it'); cbn [bind]; [|discriminate]. destruct (expect _ _); cbn [bind]; [|discriminate]. intros [= <- <-]. exact H.
Qed.
Lemma sound_read_block d it d' r : sound d -> read_block d it = Ok (d', r) -> sound d'.
Proof.
  intros H. unfold read_block. destruct (read_block_fuel _ _ _ _) as [[b r1]|] eqn:E; cbn [bind]; [|discriminate]. intros [= <- <-]. apply sound_put_block; [exact H|]. refine (block_reads _ _ _ _ _ _ _ _ E); [|constructor].
  pose proof block_check as C. do 3 (apply andb_true_iff in C; destruct C as [C _]). exact (default_fulfils _ _ C).
Qed.
Lemma sound_section_item cb : (forall d it d' r, sound d -> cb d it = Ok (d', r) -> sound d') -> forall fuel typ d it d' r, sound d -> read_section_item fuel typ cb d it = Ok (d', r) -> sound d'.
Proof.
  intros CB. induction fuel as [|f IH]; intros typ d it d' r H; [discriminate|]. cbn [read_section_item]. destruct it as [|[p|x] it']; [discriminate| |discriminate]. destruct (p_code p =? 0); [|discriminate]. destruct (assert_string p) as [s|]; cbn [bind]; [|discriminate].
  destruct (seqb s (str "ENDSEC")); [intros [= <- <-]; exact H|]. destruct (seqb s (str typ)); [|discriminate]. destruct (cb d it') as [[d1 r1]|] eqn:E; cbn [bind]; [|discriminate]. apply IH. exact (CB _ _ _ _ H E).
Qed.
Lemma sound_read_section sw env name u d it d' u' r : env_ok env -> sound d -> read_section sw env name u d it = Ok (d', u', r) -> sound d'.
Proof.
  intros En H. unfold read_section. destruct (seqb name (str "HEADER")).
  { destruct (read_header header_spec sw u env it) as [[[h u1] r1]|] eqn:E; cbn [bind fst snd]; [|discriminate]. intros [= <- <- <-]. apply sound_header; [exact H|]. apply header_of_ok. exact (header_reads _ _ _ _ _ _ _ En E). }
  destruct (seqb name (str "CLASSES")).
  { unfold read_classes. destruct (read_classes_fuel _ _ _) as [[l r1]|] eqn:E; cbn [bind]; [|discriminate]. intros [= <- <- <-]. apply sound_classes; [exact H|]. apply Forall_app. split; [exact (so_classes _ H)|exact (classes_read _ _ _ _ _ E)]. }
  destruct (seqb name (str "TABLES")).
  { destruct (read_section_item _ _ read_table d it) as [[d1 r1]|] eqn:E; cbn [bind]; [|discriminate]. intros [= <- <- <-]. exact (sound_section_item _ sound_read_table _ _ _ _ _ _ H E). }
  destruct (seqb name (str "BLOCKS")).
  { destruct (read_section_item _ _ read_block d it) as [[d1 r1]|] eqn:E; cbn [bind]; [|discriminate]. intros [= <- <- <-]. exact (sound_section_item _ sound_read_block _ _ _ _ _ _ H E). }
  destruct (seqb name (str "ENTITIES")).
  { unfold read_entities. destruct (collect it) as [[l r1]|] eqn:E; cbn [bind]; [|discriminate]. intros [= <- <- <-]. apply sound_put_entities; [exact H|]. refine (collect_ok _ _ _ _ _ E). exact Logic.I. }
  destruct (seqb name (str "OBJECTS")).
  { unfold read_objects. destruct (read_objects_fuel _ _ _) as [[d1 r1]|] eqn:E; cbn [bind]; [|discriminate]. intros [= <- <- <-]. exact (sound_read_objects _ _ _ _ _ H E). }
  destruct (seqb name (str "THUMBNAILIMAGE")).
  { destruct (read_thumbnail it) as [[t r1]|] eqn:E; cbn [bind]; [|discriminate]. intros [= <- <- <-]. apply sound_thumb; [exact H|exact (thumb_reads _ _ _ E)]. }
  destruct (swallow_section it); cbn [bind]; [|discriminate]. intros [= <- <- <-]. exact H.
Qed.
Lemma sound_sections_with sw env again : env_ok env -> (forall d it d' r, sound d -> again d it = Ok (d', r) -> sound d') ->
  forall fuel u d it d' r, sound d -> sections_with sw env again fuel u d it = Ok (d', r) -> sound d'.
Proof.
  intros En Ag. induction fuel as [|f IH]; intros u d it d' r H; [discriminate|]. cbn [sections_with]. destruct it as [|[p|x] it']; [intros [= <- <-]; exact H| |discriminate]. destruct (p_code p =? 0); [|discriminate]. destruct (assert_string p) as [s|]; cbn [bind]; [|discriminate].
  destruct (seqb s (str "EOF")); [intros [= <- <-]; exact H|]. destruct (seqb s (str "SECTION")); [|discriminate]. destruct it' as [|[q|x] it1]; [discriminate| |discriminate]. destruct (if p_code q =? 2 then _ else None) as [name|]; [|discriminate].
  destruct (read_section sw env name u d it1) as [[[d1 u1] r1]|] eqn:E; cbn [bind fst snd]; [|discriminate]. destruct (expect _ _) as [r3|]; cbn [bind]; [|discriminate]. pose proof (sound_read_section _ _ _ _ _ _ _ _ _ En H E) as H1.
  destruct (negb u && u1); [exact (Ag _ _ _ _ H1)|exact (IH _ _ _ _ _ H1)].
Qed.
Lemma sound_start env : env_ok env -> sound (start env).
Proof.
  intros En. unfold start. assert (H : header_ok (set_next 1 (header_of (header_default header_spec env)))) by (apply header_next_ok, header_of_ok, header_default_ok, En).
  unfold empty_drawing. split; cbn [set_header dr_header dr_classes tget dr_blocks dr_entities dr_objects dr_thumbnail thumb_ok]; try constructor; [exact H|]. destruct k; constructor.
Qed.
Lemma sound_load sw env it d : env_ok env -> load sw env it = Ok d -> sound d.
Proof.
  intros En. unfold load, load_from. destruct (read_sections sw env _ false (start env) it) as [[d1 r]|] eqn:E; cbn [bind]; [|discriminate].
  assert (H : sound d1).
  { revert E. unfold read_sections. apply sound_sections_with; [exact En| |exact (sound_start _ En)]. intros d0 it0 d' r0. apply sound_sections_with; [exact En|discriminate]. }
  destruct r as [|[p|x] r]; [intros [= <-]; exact H| |discriminate]. destruct (is_zero "EOF" p); [intros [= <-]; exact H|discriminate].
Qed.

(** Showing by computation that a concrete item is well typed, and that a field of it does not come back. *)
From Verif Require Import Base CodePairModel VersionModel ExtDataModel ExtDataSpec SpecModel SpecSpec SpecCheck SpecProofs SpecCoverProofs.
Open Scope Z_scope.
Set Default Goal Selector "!".

(** * Well-typed items *)
Fixpoint kindb (k : kind) (v : fval) {struct k} : bool :=
  match k, v with
  | KBool, FBool _ => true
  | KInt lo hi, FInt z => (lo <=? z) && (z <=? hi)
  | KU32, FInt z => (0 <=? z) && (z <? 4294967296)
  | KEnum vals, FInt z => existsb (Z.eqb z) vals
  | KF64, FF64 d => (d <? 18446744073709551616)%N
  | KStr, FStr _ => true
  | KBin, FBin _ => true
  | KHandle, FHandle h => (h <? 18446744073709551616)%N
  | KList k, FList l => forallb (kindb k) l
  | KRec ks, FList l =>
      (fix all ks l := match ks, l with
                       | [], [] => true
                       | k :: ks', x :: l' => kindb k x && all ks' l'
                       | _, _ => false
                       end) ks l
  | KConst c, v => simple_eqb v c
  | KXd, FXd x => match xd_items x with [] => true | _ => false end (* enough for examples *)
  | KAny, _ => true
  | KWhole, FF64 d => let z := f64_to_int_sat (-2147483648) 2147483647 d in (d =? f64_of_Z z)%N && (-2147483648 <=? z) && (z <? 2147483648)
  | _, _ => false
  end.
Lemma kindb_sound : forall k v, kindb k v = true -> has_kind k v.
Proof.
  fix IH 1. intros k v H. destruct k as [|lo hi| |vals| | | | | | |k|ks|c| |]; cbn [kindb has_kind] in *.
  - destruct v as [b| | | | | | | |]; try discriminate H. exists b. reflexivity.
  - destruct v as [|z| | | | | | |]; try discriminate H. exists z. split; [reflexivity|lia].
  - destruct v as [|z| | | | | | |]; try discriminate H. exists z. split; [reflexivity|]. change (2 ^ 32) with 4294967296. lia.
  - destruct v as [|z| | | | | | |]; try discriminate H. exists z. split; [reflexivity|]. apply existsb_exists in H.
    destruct H as [x [Hx E]]. apply Z.eqb_eq in E. subst. exact Hx.
  - destruct v as [| |d| | | | | |]; try discriminate H. exists d. split; [reflexivity|]. apply N.ltb_lt, H.
  - destruct v as [| | |s| | | | |]; try discriminate H. exists s. reflexivity.
  - destruct v as [| | | |b| | | |]; try discriminate H. exists b. reflexivity.
  - destruct v as [| | | | |h| | |]; try discriminate H. exists h. split; [reflexivity|]. apply N.ltb_lt, H.
  - destruct v; discriminate H.
  - destruct v as [| | | | | | |x|]; try discriminate H. exists x. split; [reflexivity|]. destruct (xd_items x); [constructor|discriminate H].
  - destruct v as [| | | | | | | |l]; try discriminate H. exists l. split; [reflexivity|].
    induction l as [|x l IHl]; [constructor|]. cbn [forallb] in H. apply andb_true_iff in H. destruct H as [H1 H2].
    constructor; [apply IH, H1|apply IHl, H2].
  - destruct v as [| | | | | | | |l]; try discriminate H. exists l. split; [reflexivity|].
    revert l H. induction ks as [|k ks IHk]; intros [|x l] H; try discriminate H; [exact Logic.I|].
    apply andb_true_iff in H. destruct H as [H1 H2]. split; [apply IH, H1|apply IHk, H2].
  - destruct v; apply simple_eqb_eq in H; exact H.
  - exact Logic.I.
  - destruct v as [| |d| | | | | |]; try discriminate H. apply andb_true_iff in H. destruct H as [H H3]. apply andb_true_iff in H. destruct H as [H1 H2].
    eexists. split; [f_equal; apply N.eqb_eq, H1|]. change (2 ^ 31) with 2147483648. split; [apply Z.leb_le, H2|apply Z.ltb_lt, H3].
Qed.

Definition int_fitsb (code z : Z) : bool :=
  match expected_type code with
  | Some TShort => (-32768 <=? z) && (z <=? 32767)
  | Some TInt => (-2147483648 <=? z) && (z <? 2147483648)
  | _ => true
  end.
Lemma int_fitsb_sound code z : int_fitsb code z = true -> int_fits code z.
Proof.
  unfold int_fitsb, int_fits. destruct (expected_type code) as [[]|]; intros H; try exact Logic.I; [|lia].
  change (2 ^ 31) with 2147483648. lia.
Qed.
Definition fitsb (k : kind) (code : Z) (v : fval) : bool :=
  match k, v with
  | KU32, _ => true
  | _, FInt z => int_fitsb code z
  | _, FList l => forallb (fun x => match x with FInt z => int_fitsb code z | _ => true end) l
  | _, _ => true
  end.
Lemma fitsb_sound k code v : fitsb k code v = true -> fits k code v.
Proof.
  assert (L : forall l, forallb (fun x => match x with FInt z => int_fitsb code z | _ => true end) l = true ->
    Forall (fun x => match x with FInt z => int_fits code z | _ => True end) l).
  { induction l as [|x l IH]; intros H; constructor; cbn [forallb] in H; apply andb_true_iff in H; destruct H as [H1 H2]; [|apply IH, H2].
    destruct x; try exact Logic.I. apply int_fitsb_sound, H1. }
  destruct k, v; cbn [fitsb fits]; intros H; try exact Logic.I; try (apply int_fitsb_sound; exact H); apply L, H.
Qed.

Definition typedb (t : itype) (item : store) : bool :=
  forallb (fun f => kindb (f_kind f) (item (f_name f)) && forallb (fun c => fitsb (f_kind f) c (item (f_name f))) (f_codes f)) (it_fields t).
Lemma typedb_sound t item : typedb t item = true -> well_typed t item.
Proof.
  unfold typedb, well_typed. rewrite forallb_forall. intros H f Hf. specialize (H f Hf). apply andb_true_iff in H. destruct H as [H1 H2].
  split; [apply kindb_sound, H1|]. rewrite forallb_forall in H2. apply Forall_forall. intros c Hc. apply fitsb_sound, H2, Hc.
Qed.

(** * Lost fields *)
Fixpoint sameb (a b : fval) {struct a} : bool :=
  match a, b with
  | FF64 x, FF64 y => (x =? y)%N || (((x mod 2 ^ 63 =? 0) && (y mod 2 ^ 63 =? 0)))%N
  | FList l, FList m => (fix all l m := match l, m with [], [] => true | x :: l', y :: m' => sameb x y && all l' m' | _, _ => false end) l m
  | FExt _, FExt _ | FXd _, FXd _ => true
  | _, _ => simple_eqb a b
  end.
Lemma simple_eqb_refl a : match a with FExt _ | FXd _ | FList _ => True | _ => simple_eqb a a = true end.
Proof.
  destruct a; cbn [simple_eqb]; try exact Logic.I; try apply seqb_refl; try apply N.eqb_refl; try apply Z.eqb_refl. apply eqb_reflx.
Qed.
Lemma sameb_refl : forall a, sameb a a = true.
Proof.
  fix IH 1. intros a. destruct a as [x|x|x|x|x|x|x|x|l]; cbn [sameb]; try reflexivity.
  1-6: try exact (simple_eqb_refl (FBool x)); try exact (simple_eqb_refl (FInt x)); try exact (simple_eqb_refl (FStr x));
       try exact (simple_eqb_refl (FBin x)); try exact (simple_eqb_refl (FHandle x)); rewrite N.eqb_refl; reflexivity.
  induction l as [|x l IHl]; [reflexivity|]. rewrite IH. exact IHl.
Qed.
Lemma sameb_complete : forall a b, same a b -> sameb a b = true.
Proof.
  fix IH 3. intros a b H. destruct H as [v|d e H1 H2|l m H].
  - apply sameb_refl.
  - cbn [sameb]. rewrite H1, H2, !N.eqb_refl. apply orb_true_r.
  - cbn [sameb]. revert l m H. fix IH2 3. intros l m H. destruct H as [|x y l m Hx Hl]; [reflexivity|]. rewrite (IH x y Hx). exact (IH2 l m Hl).
Qed.

Definition window_appliesb (v : version) (wh : bool) (item : store) (w : window) : bool :=
  (match w_min w with Some m => version_index m <=? version_index v | None => true end)%N &&
  (match w_max w with Some m => version_index v <=? version_index m | None => true end)%N &&
  (negb (w_handles w) || wh) &&
  (match w_when w with Some s => match item s with FBool b => b | _ => false end | None => true end).
Definition storedb (v : version) (wh : bool) (item : store) (f : field) : bool := existsb (window_appliesb v wh item) (f_windows f).
Lemma window_appliesb_iff v wh item w : window_appliesb v wh item w = true <-> window_applies v wh item w.
Proof.
  unfold window_appliesb, window_applies. rewrite !andb_true_iff. split.
  - intros [[[H1 H2] H3] H4]. repeat split.
    + destruct (w_min w); [apply N.leb_le, H1|exact Logic.I].
    + destruct (w_max w); [apply N.leb_le, H2|exact Logic.I].
    + intros E. rewrite E in H3. exact H3.
    + destruct (w_when w); [|exact Logic.I]. destruct (item s); try discriminate H4. subst. reflexivity.
  - intros (H1 & H2 & H3 & H4). repeat split.
    + destruct (w_min w); [apply N.leb_le, H1|reflexivity].
    + destruct (w_max w); [apply N.leb_le, H2|reflexivity].
    + destruct (w_handles w); [rewrite (H3 eq_refl); reflexivity|reflexivity].
    + destruct (w_when w); [rewrite H4; reflexivity|reflexivity].
Qed.
Lemma storedb_iff v wh item f : storedb v wh item f = true <-> stored v wh item f.
Proof.
  unfold storedb, stored. rewrite existsb_exists. split; intros [w [Hw H]]; exists w; (split; [exact Hw|]); apply window_appliesb_iff, H.
Qed.

Definition stop : pair := mk_pair 0 (VStr (str "X")).
(** The item does not come back with the field's value. *)
Definition backb (t : itype) (v : version) (wh : bool) (item : store) (s : string) : bool :=
  match write_item (it_spec t) v wh item with
  | Err _ => false
  | Ok ps =>
      match read_item (it_spec t) (map Ok ps ++ [Ok stop]) with
      | Err _ => false
      | Ok (None, _) => false
      | Ok (Some st, r) =>
          forallb (fun f => negb (String.eqb (f_name f) s && f_public f) ||
            sameb (st s) (if storedb v wh item f then kept v f (item s) else default_of (it_spec t) s)) (it_fields t)
      end
  end.
Lemma backb_complete t v wh item s : comes_back t v wh item s -> backb t v wh item s = true.
Proof.
  intros (ps & st & Ew & Er & Hf). unfold backb. rewrite Ew. unfold stop. rewrite Er. apply forallb_forall. intros f Hin.
  destruct (String.eqb (f_name f) s) eqn:E1; [|reflexivity]. destruct (f_public f) eqn:E2; [|reflexivity]. cbn [andb negb orb].
  apply String.eqb_eq in E1. destruct (Hf f Hin E1 E2) as [F1 F2]. destruct (storedb v wh item f) eqn:E.
  - apply sameb_complete, F1, storedb_iff, E.
  - apply sameb_complete, F2. intros X. apply storedb_iff in X. congruence.
Qed.
Definition lostb (t : itype) (v : version) (wh : bool) (item : store) (s : string) : bool := typedb t item && negb (backb t v wh item s).
Lemma lostb_sound t v wh item s : lostb t v wh item s = true -> field_lost t v s.
Proof.
  unfold lostb. intros H. apply andb_true_iff in H. destruct H as [Ht H]. exists wh, item. split; [apply typedb_sound, Ht|].
  intros X. apply backb_complete in X. rewrite X in H. discriminate H.
Qed.
Definition kindsb (t : itype) (item : store) : bool := forallb (fun f => kindb (f_kind f) (item (f_name f))) (it_fields t).
Definition cutb (t : itype) (v : version) (wh : bool) (item : store) (s : string) : bool := kindsb t item && negb (backb t v wh item s).
Lemma cutb_sound t v wh item s : cutb t v wh item s = true -> field_cut t v s.
Proof.
  unfold cutb, kindsb. intros H. apply andb_true_iff in H. destruct H as [Ht H]. exists wh, item. split.
  - intros f Hf. rewrite forallb_forall in Ht. apply kindb_sound, Ht, Hf.
  - intros X. apply backb_complete in X. rewrite X in H. discriminate H.
Qed.

(** An item with some fields set and the default in the others. *)
Definition item_with (t : itype) (l : list (string * fval)) : store :=
  fun s => match assoc_slot s l with Some v => v | None => default_of (it_spec t) s end.

(** Claims about a range of versions. *)
Definition in_versions (lo hi : version) : list version := filter (fun v => version_leb lo v && version_leb v hi) all_versions.
Lemma all_versions_all v : In v all_versions.
Proof. destruct v; cbn; tauto. Qed.

(** A value unlike the usual defaults for each kind, and an item with such values in some fields. *)
Fixpoint sample (k : kind) : fval :=
  match k with
  | KBool => FBool true
  | KInt lo hi => FInt (Z.min hi 7)
  | KU32 => FInt 7
  | KEnum vals => FInt (last vals 0)
  | KF64 => FF64 4613937818241073152 (* 3.0 *)
  | KStr => FStr (str "x y")
  | KBin => FBin [1; 2]%N
  | KHandle => FHandle 9
  | KXd => FXd (mk_xdata (str "A") [])
  | KExt => FExt (mk_ext (str "A") [])
  | KList k => FList [sample k]
  | KRec ks => FList ((fix go ks := match ks with [] => [] | k :: r => sample k :: go r end) ks)
  | KConst v => v
  | KAny => FInt 7
  | KWhole => FF64 4613937818241073152 (* 3.0 *)
  end.
Definition find_field (t : itype) (s : string) : option field := find (fun f => String.eqb (f_name f) s) (it_fields t).
Definition sampled (t : itype) (ss : list string) : store :=
  item_with t (flat_map (fun s => match find_field t s with Some f => [(s, match default_of (it_spec t) s with FBool b => FBool (negb b) | _ => sample (f_kind f) end)] | None => [] end) ss).

(** Integer fields that are wider than the code they are stored under. *)
Definition wide (f : field) : bool :=
  match f_kind f with
  | KInt lo hi => f_public f && ((lo <? -32768) || (32767 <? hi)) &&
      existsb (fun c => match expected_type c with Some TShort => true | _ => false end) (f_codes f)
  | _ => false
  end.
Definition wide_cut (t : itype) (v : version) : bool :=
  forallb (fun f => let item := item_with t [(f_name f, FInt 98309)] in
    negb (wide f && storedb v true item f) || cutb t v true item (f_name f)) (it_fields t).
Lemma wide_cut_sound t v f : wide_cut t v = true -> In f (it_fields t) -> wide f = true ->
  storedb v true (item_with t [(f_name f, FInt 98309)]) f = true -> field_cut t v (f_name f).
Proof.
  unfold wide_cut. rewrite forallb_forall. intros H Hf Hw Hs. specialize (H f Hf). cbn beta zeta in H. rewrite Hw, Hs in H. cbn [andb negb orb] in H.
  eapply cutb_sound, H.
Qed.

(** Checks over all types of a list and all versions. *)
Definition every (ts : list itype) (p : itype -> version -> bool) : bool := forallb (fun t => forallb (p t) all_versions) ts.
Lemma every_sound ts p : every ts p = true -> forall t v, In t ts -> p t v = true.
Proof.
  unfold every. rewrite forallb_forall. intros H t v Ht. specialize (H t Ht). rewrite forallb_forall in H. exact (H v (all_versions_all v)).
Qed.
(** For each field of [lost t v], one of three items shows that it is lost: one with a sample value in that field only, one with sample values in
    all these fields, one with sample values in the others. *)
Definition shown_lost (lost : itype -> version -> list string) (t : itype) (v : version) : bool :=
  if negb (supported (it_spec t) v) then true else
  forallb (fun s => if lostb t v true (sampled t [s]) s then true else if lostb t v true (sampled t (lost t v)) s then true else
    lostb t v true (sampled t (filter (fun u => negb (String.eqb u s)) (lost t v))) s) (lost t v).
Lemma shown_lost_sound lost t v s : shown_lost lost t v = true -> supported (it_spec t) v = true -> In s (lost t v) -> field_lost t v s.
Proof.
  unfold shown_lost. intros C Hv Hs. rewrite Hv in C. cbn [negb orb] in C. rewrite forallb_forall in C. specialize (C s Hs).
  destruct (lostb t v true (sampled t [s]) s) eqn:C1; [exact (lostb_sound _ _ _ _ _ C1)|].
  destruct (lostb t v true (sampled t (lost t v)) s) eqn:C2; [exact (lostb_sound _ _ _ _ _ C2)|]. exact (lostb_sound _ _ _ _ _ C).
Qed.
(** Wide fields, for the last version that supports the type. *)
Definition latest (t : itype) : version := match sp_max (it_spec t) with Some v => v | None => R2018 end.
Lemma wide_cuts_sound ts : forallb (fun t => wide_cut t (latest t)) ts = true -> forall t f, In t ts -> In f (it_fields t) -> wide f = true ->
  storedb (latest t) true (item_with t [(f_name f, FInt 98309)]) f = true -> field_cut t (latest t) (f_name f).
Proof. rewrite forallb_forall. intros H t f Ht. exact (wide_cut_sound t (latest t) f (H t Ht)). Qed.
(** The checker, for a list of types. *)
Definition checked (skip : itype -> version -> bool) (lost : itype -> version -> list string) (t : itype) (v : version) : bool :=
  negb (supported (it_spec t) v) || skip t v || check_item t v true (lost t v) && check_item t v false (lost t v).
Lemma checked_sound skip lost t v : checked skip lost t v = true -> supported (it_spec t) v = true -> skip t v = false -> survives t v (lost t v).
Proof.
  unfold checked. intros C Hv Hs. rewrite Hv, Hs in C. cbn [negb orb] in C. apply andb_true_iff in C. apply check_item_sound. intros wh. destruct wh; apply C.
Qed.
(** The item disappears. *)
Definition vanishes (t : itype) (v : version) (item : store) : bool :=
  typedb t item && match write_item (it_spec t) v true item with
  | Ok ps => match read_item (it_spec t) (map Ok ps ++ [Ok stop]) with Ok (None, _) => true | _ => false end
  | Err _ => false
  end.
Lemma vanishes_sound t v item : vanishes t v item = true -> well_typed t item /\
  exists ps r, write_item (it_spec t) v true item = Ok ps /\ read_item (it_spec t) (map Ok ps ++ [Ok stop]) = Ok (None, r).
Proof.
  unfold vanishes. intros H. apply andb_true_iff in H. destruct H as [Ht H]. split; [apply typedb_sound, Ht|].
  destruct (write_item (it_spec t) v true item) as [ps|]; [|discriminate H]. exists ps.
  destruct (read_item (it_spec t) (map Ok ps ++ [Ok stop])) as [[[st|] r]|]; try discriminate H. exists r. split; reflexivity.
Qed.

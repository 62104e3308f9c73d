(** Comments in whole files (C14). *)
From Verif Require Import Base TextModel CodePairModel CodePairSpec DrawingModel SaveModel HeaderProps BytesProps CommentSpec CommentProofs.
Open Scope string_scope.
Open Scope list_scope.
Open Scope N_scope.
Set Default Goal Selector "!".

(** A text file of well-formed pairs loads the same with comments anywhere between the pairs, before the first and after the last one,
    in any encoding and also when the file turns out to be in UTF-8 on the way. *)
Theorem C14_comments_in_files : forall env enc a b, commented_file a b -> load_bytes env enc a = load_bytes env enc b.
Proof. intros env enc a b H. exact (commented_load env enc a b H). Qed.
Print Assumptions C14_comments_in_files.

(** A file as a list of pairs of lines, [true] marks the comments to leave out. *)
Definition lines_of (l : list (bool * string * string)) : bytes := flat_map (fun x : bool * string * string => str (snd (fst x)) ++ [10] ++ str (snd x) ++ [10]) l.
Definition without (l : list (bool * string * string)) : list (bool * string * string) := filter (fun x => negb (fst (fst x))) l.
Definition no_feed (b : bytes) : bool := forallb (fun x => negb (x =? 10)) b.
Lemma no_feed_sound b : no_feed b = true -> one_line b.
Proof. intros H X. unfold no_feed in H. rewrite forallb_forall in H. specialize (H _ X). discriminate H. Qed.
Definition readableb (c v : bytes) : bool := no_feed c && no_feed v &&
  match line_text WINDOWS_1252 (without_mark c), line_text UTF_8 (without_mark c) with
  | Some s, Some s' => match parse_i32 s 0, parse_i32 s' 0 with
      | Ok z, Ok z' => (z =? z')%Z && match expected_type z with
          | Some t => forallb (fun enc => match line_text enc v with Some x => match parse_value enc t x 0 with Ok _ => true | Err _ => false end | None => false end) [WINDOWS_1252; UTF_8]
          | None => false end
      | _, _ => false end
  | _, _ => false
  end.
Lemma readableb_sound c v : readableb c v = true -> readable c v.
Proof.
  unfold readableb. intros H. apply andb_true_iff in H as [H1 H]. apply andb_true_iff in H1 as [H1 H2]. split; [exact (no_feed_sound c H1)|]. split; [exact (no_feed_sound v H2)|]. intros enc.
  destruct (line_text WINDOWS_1252 (without_mark c)) as [s|] eqn:L; [|discriminate H]. destruct (line_text UTF_8 (without_mark c)) as [s'|] eqn:L'; [|discriminate H].
  destruct (parse_i32 s 0) as [z|] eqn:P; [|discriminate H]. destruct (parse_i32 s' 0) as [z'|] eqn:P'; [|discriminate H]. apply andb_true_iff in H as [E H]. apply Z.eqb_eq in E. subst z'.
  destruct (expected_type z) as [t|] eqn:T; [|discriminate H]. rewrite forallb_forall in H. specialize (H enc). assert (In enc [WINDOWS_1252; UTF_8]) as I by (destruct enc; cbn [In]; auto). specialize (H I). cbv beta in H.
  destruct (line_text enc v) as [x|] eqn:V; [|discriminate H]. destruct (parse_value enc t x 0) as [y|] eqn:Y; [|discriminate H]. exists (mk_pair z y). split; [intros []; eexists; split; eassumption|].
  exists x, t. split; [exact V|]. split; [exact T|exact Y].
Qed.
Lemma lines_commented l : forallb (fun x : bool * string * string => if fst (fst x) then String.eqb (snd (fst x)) "999" && no_feed (str (snd x)) && forallb (fun b => b <? 128) (str (snd x)) else readableb (str (snd (fst x))) (str (snd x))) l = true ->
  commented_file (lines_of (without l)) (lines_of l).
Proof.
  induction l as [|[[b c] v] l IH]; intros H; [apply cf_end; left; reflexivity|]. cbn [forallb fst snd] in H. apply andb_true_iff in H as [H H']. specialize (IH H').
  unfold lines_of in *. cbn [without filter flat_map fst snd]. destruct b; cbn [negb flat_map fst snd] in *.
  - apply andb_true_iff in H as [H H3]. apply andb_true_iff in H as [H1 H2]. apply String.eqb_eq in H1. subst c. rewrite <- !app_assoc. cbn [app]. apply cf_comment; [|exact IH]. split; [exact (no_feed_sound _ H2)|].
    split; [exists O, []; split; [reflexivity|left; reflexivity]|]. apply Forall_forall. intros x Hx. rewrite forallb_forall in H3. specialize (H3 x Hx). lia.
  - rewrite <- !app_assoc. cbn [app]. apply cf_pair; [exact (readableb_sound _ _ H)|exact IH].
Qed.
Definition commented : list (bool * string * string) :=
  [(true, "999", "made by hand"); (false, "0", "SECTION"); (false, "2", "HEADER"); (true, "999", "0"); (false, "9", "$ACADVER"); (true, "999", "nine"); (false, "1", "AC1021"); (true, "999", "now in UTF-8"); (false, "0", "ENDSEC");
   (true, "999", ""); (false, "0", "SECTION"); (true, "999", "SECTION"); (false, "2", "ENTITIES"); (false, "0", "LINE"); (false, "8", "walls"); (true, "999", "x"); (false, "10", "1.0"); (false, "0", "ENDSEC"); (false, "0", "EOF"); (true, "999", "end")].
Example C14_comments_in_files_ex : commented_file (lines_of (without commented)) (lines_of commented) /\ length (without commented) = 12%nat /\
  match load_bytes env0 WINDOWS_1252 (lines_of commented) with Ok d => map en_layer (dr_entities d) = [str "walls"] | Err _ => False end.
Proof. split; [apply lines_commented; vm_compute; reflexivity|]. split; [reflexivity|]. vm_compute. reflexivity. Qed.

(** A comment is decoded like everything else: one that is not UTF-8 makes a file of 2007 unreadable. *)
Definition comment_file (comment : bytes) : bytes := file_of ["0"; "SECTION"; "2"; "HEADER"; "9"; "$ACADVER"; "1"; "AC1021"] ++ comment ++ file_of ["0"; "ENDSEC"; "0"; "EOF"].
Theorem C14_comment_encoding_refuted : exists v, match load_bytes env0 WINDOWS_1252 (comment_file []) with Ok _ => true | Err _ => false end = true /\
  load_bytes env0 WINDOWS_1252 (comment_file (str "999" ++ [10] ++ v ++ [10])) = Err MalformedString.
Proof. exists [0xE9]. split; vm_compute; reflexivity. Qed.
Print Assumptions C14_comment_encoding_refuted.

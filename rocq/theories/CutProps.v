(** C58: files cut short. *)
From Verif Require Import Base TextModel CodePairModel CodePairSpec LineProofs VersionModel StreamModel SpecModel SpecSpec HeaderModel HeaderData HeaderProps
  DrawingModel FileModel SaveModel LoadSpec LoadProofs SkipProofs BytesProofs BytesProps CutProofs.
From Verif Require DxbModel.
Open Scope string_scope.
Open Scope list_scope.
Open Scope N_scope.
Set Default Goal Selector "!".
Local Notation item := LoadSpec.item.

(** A DXB file, cut anywhere after its first line: if what is left is accepted, it is what the whole file gives. *)
Theorem C58_dxb : forall env enc p q d, line_text enc (without_mark (nth_line 0 p)) = Some (str "AutoCAD DXB 1.0") ->
  load_bytes env enc p = Ok d -> load_bytes env enc (p ++ q) = Ok d.
Proof.
  intros env enc p q d H. assert (A : exists r, after_dxb_line enc p = Some r).
  { unfold after_dxb_line. destruct (read_line_lines true enc p) as (r & E & _). rewrite E, H. exists r. reflexivity. }
  destruct A as [r A]. exact (dxb_cut env enc p q r d A).
Qed.
Print Assumptions C58_dxb.
(** A point, a line and a point; it can be cut after its end mark only. *)
Definition dxb_file : bytes := str "AutoCAD DXB 1.0" ++ [13; 10; 26; 0; 2; 1; 0; 2; 0; 1; 0; 0; 0; 0; 0; 0; 3; 0; 4; 0; 5; 0; 2; 3; 0; 4; 0; 0; 7; 7].
Definition entities_loaded (bs : bytes) : option nat := match load_bytes env0 WINDOWS_1252 bs with Ok d => Some (length (dr_entities d)) | Err _ => None end.
Example C58_dxb_case : line_text WINDOWS_1252 (without_mark (nth_line 0 dxb_file)) = Some (str "AutoCAD DXB 1.0") /\
  map (fun n => entities_loaded (firstn n dxb_file)) [16; 17; 18; 19; 24; 30; 42; 43; 44; 45; 46]%nat = [None; None; None; None; None; None; None; Some 3; Some 3; Some 3; Some 3]%nat.
Proof. split; vm_compute; reflexivity. Qed.

(** Any other file, text or binary: what is accepted ends with its last section closed, or has an end mark.
    Missing: that no section is missing, which is refuted. *)
Theorem C58_sections_are_closed_partial : forall env enc bs d rd, line_text enc (without_mark (nth_line 0 bs)) <> Some (str "AutoCAD DXB 1.0") ->
  open_reader enc bs = Ok rd -> load_bytes env enc bs = Ok d ->
  complete (feed_of rd) \/ exists r, left_of r (feed_of rd) /\ complete (feed_as_utf8 rd r).
Proof.
  intros env enc bs d rd H O L. assert (A : after_dxb_line enc bs = None).
  { unfold after_dxb_line. destruct (read_line_lines true enc bs) as (r & E & _). rewrite E. destruct (line_text enc _) as [s|]; [|reflexivity]. cbn [res_of_option].
    destruct (seqb s DxbModel.dxb_line) eqn:Q; [|reflexivity]. apply seqb_eq in Q as ->. contradiction H. reflexivity. }
  unfold load_bytes in L. rewrite A, O in L. cbn [bind] in L. apply (load_complete (feed_as_utf8 rd) env (feed_of rd) d); [|apply any_good, feed_reports|exact L].
  intros y _. apply any_good, utf8_reports.
Qed.
Print Assumptions C58_sections_are_closed_partial.
(** So a file none of whose pairs says ENDSEC last, and none EOF, is not accepted: [small_file] cut within its entities. *)
Definition last_is_endsec (it : feed) : bool := match rev it with Ok p :: _ => is_zero "ENDSEC" p | [] => true | _ => false end.
Definition completeb (it : feed) : bool := last_is_endsec it || existsb (fun x => match x with Ok p => is_zero "EOF" p | Err _ => false end) it.
Example C58_sections_case : map (fun n => match open_reader WINDOWS_1252 (firstn n small_file) with Ok rd => (entities_loaded (firstn n small_file), completeb (feed_of rd)) | Err _ => (None, true) end)
  [20; 66; 100; 120; 131; 136; 142]%nat = [(None, false); (Some 0%nat, true); (None, false); (None, false); (Some 1%nat, true); (None, false); (Some 1%nat, true)].
Proof. vm_compute. reflexivity. Qed.
(** A file cut between two sections is accepted without what is missing. *)
Theorem C58_between_sections_refuted : exists p q d1 d2, load_bytes env0 WINDOWS_1252 p = Ok d1 /\ load_bytes env0 WINDOWS_1252 (p ++ q) = Ok d2 /\
  length (dr_entities d1) = 0%nat /\ length (dr_entities d2) = 1%nat.
Proof.
  exists (firstn 66 small_file), (skipn 66 small_file). rewrite firstn_skipn.
  assert (H1 : entities_loaded (firstn 66 small_file) = Some 0%nat) by (vm_compute; reflexivity).
  assert (H2 : entities_loaded small_file = Some 1%nat) by (vm_compute; reflexivity).
  unfold entities_loaded in H1, H2. destruct (load_bytes env0 WINDOWS_1252 (firstn 66 small_file)) as [d1|]; [|discriminate H1]. destruct (load_bytes env0 WINDOWS_1252 small_file) as [d2|]; [|discriminate H2].
  exists d1, d2. injection H1 as H1. injection H2 as H2. auto.
Qed.
Print Assumptions C58_between_sections_refuted.

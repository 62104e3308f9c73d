(** Files with an end mark. *)
From Verif Require Import Base TextModel CodePairSpec.
Open Scope list_scope.
Open Scope N_scope.

(** The last two lines are 0, perhaps with blanks before it, and EOF; lines end with LF or with CR LF. *)
Definition line_end (w : bytes) : Prop := w = [10] \/ w = [13; 10].
Definition ends_with_mark (bs : bytes) : Prop := exists pre n w w',
  bs = pre ++ repeat 32 n ++ str "0" ++ w ++ str "EOF" ++ w' /\ (pre = [] \/ last pre 0 = 10) /\ line_end w /\ line_end w'.
(** Neither the first line of a binary file nor that of a DXB file. *)
Definition text_file_start (enc : encoding) (bs : bytes) : Prop :=
  forall s, line_text enc (without_mark (nth_line 0 bs)) = Some s -> s <> str "AutoCAD Binary DXF" /\ s <> str "AutoCAD DXB 1.0".

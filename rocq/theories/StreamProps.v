(** Properties C14, C15 and C38. *)
From Verif Require Import Base StreamModel StreamSpec StreamProofs VersionProofs.

(** C14. A reader of the stream, whatever it does with the items, gets the same result from a source with
    comments inserted. *)
Theorem C14_comments_are_invisible : forall (A : Type) (reader : client A) source with_comments,
  commented source with_comments ->
  fst (on_putback reader (pb_new source)) = fst (on_putback reader (pb_new with_comments)).
Proof. exact @comments_invisible. Qed.
Print Assumptions C14_comments_are_invisible.

Definition demo_pair : pair := mk_pair 0 (VStr (str "SECTION")).
Definition demo_comment : pair := mk_pair 999 (VStr (str "hello")).
Example C14_case :
  commented [Ok demo_pair; Err UnexpectedEndOfInput] [Ok demo_comment; Ok demo_pair; Ok demo_comment; Err UnexpectedEndOfInput] /\
  fst (on_putback (Take (fun x => Take (fun y => Done (x, y)))) (pb_new [Ok demo_comment; Ok demo_pair; Ok demo_comment; Err UnexpectedEndOfInput]))
    = (Some (Ok demo_pair), Some (Err UnexpectedEndOfInput)).
Proof. split; [repeat (constructor; try reflexivity)|reflexivity]. Qed.

(** C15. The push-back iterator behaves like a plain list for every reader... *)
Theorem C15_putback_is_a_list : forall (A : Type) (reader : client A) source,
  fst (on_putback reader (pb_new source)) = fst (on_list reader (visible source)).
Proof. intros A reader source. exact (proj1 (putback_is_list reader (pb_new source))). Qed.
Print Assumptions C15_putback_is_a_list.

(** ... so after any interleaving of reading and handing back, the items held followed by the items still
    to come are the original ones. *)
Theorem C15_nothing_lost_duplicated_or_reordered : forall ops source n, (length source <= n)%nat ->
  let '(held, pb) := walk pb_next pb_put_back ops [] (pb_new source) in
  rev held ++ read_all pb_next n pb = visible source.
Proof. exact walk_then_read. Qed.
Print Assumptions C15_nothing_lost_duplicated_or_reordered.

(** An item handed back is the next one delivered, even if it is a comment or an error. *)
Theorem C15_handed_back_is_next : forall (A : Type) x (reader : option (res pair) -> client A) pb,
  on_putback (Give x (Take reader)) pb = on_putback (reader (Some x)) pb.
Proof. exact @give_then_take. Qed.
Print Assumptions C15_handed_back_is_next.

Example C15_case :
  walk pb_next pb_put_back [true; true; false; false; true] [] (pb_new [Ok demo_pair; Ok demo_comment; Err UnexpectedEndOfInput])
  = ([Ok demo_pair], mk_pb [Err UnexpectedEndOfInput] []).
Proof. reflexivity. Qed.

(** C38. *)
Theorem C38_version_text_roundtrip : forall v, v <> R11 -> version_from (version_text v) = Ok v.
Proof. exact version_roundtrip. Qed.
Print Assumptions C38_version_text_roundtrip.

(** R11 is the one exception: its text is that of R12. *)
Theorem C38_r11_reads_as_r12 : version_from (version_text R11) = Ok R12.
Proof. exact r11_is_r12. Qed.
Print Assumptions C38_r11_reads_as_r12.

(** The order is total, and chronological with respect to the release years. *)
Theorem C38_version_order : forall a b,
  (version_leb a b = true <-> (position a <= position b)%nat) /\ (version_leb a b = true \/ version_leb b a = true) /\
  (version_leb a b = true -> version_leb b a = true -> a = b).
Proof. exact version_order. Qed.
Print Assumptions C38_version_order.

(** Different versions other than R11 and R12 have different texts, so a file never names two of them. *)
Theorem C38_version_texts_distinct : forall a b, version_text a = version_text b -> a = b \/ (a = R11 /\ b = R12) \/ (a = R12 /\ b = R11).
Proof. exact version_text_inj. Qed.
Print Assumptions C38_version_texts_distinct.

Example C38_case : version_text R2010 = str "AC1024" /\ version_from (str "AC1024") = Ok R2010 /\ version_leb R2010 R2013 = true.
Proof. repeat split. Qed.

(** Property C52. *)
From Verif Require Import Base StreamModel UuidModel UuidSpec UuidProofs.
Open Scope N_scope.

(** C52. The text written for a UUID is its hyphenated form... *)
Theorem C52_written_form : forall u, is_uuid u = true -> uuid_plain (uuid_string u) u.
Proof. exact uuid_string_plain. Qed.
Print Assumptions C52_written_form.
(** ... which is read back, with or without braces. *)
Theorem C52_uuid_roundtrip : forall u, is_uuid u = true ->
  as_uuid (uuid_string u) = u /\ as_uuid ([123] ++ uuid_string u ++ [125]) = u.
Proof.
  intros u H. apply uuid_string_plain in H.
  split; apply as_uuid_accepted; [apply accepted_plain|apply accepted_braced]; apply uuid_hyphenated; exact H.
Qed.
Print Assumptions C52_uuid_roundtrip.
(** Every text of an accepted form is read as the number it denotes; every other text is read as nil. *)
Theorem C52_accepted_forms : forall s v, uuid_accepted s v -> as_uuid s = v.
Proof. exact as_uuid_accepted. Qed.
Print Assumptions C52_accepted_forms.
Theorem C52_other_text_is_nil : forall s, (forall v, ~ uuid_accepted s v) -> as_uuid s = 0.
Proof.
  intros s H. destruct (N.eq_dec (as_uuid s) 0) as [E|E]; [exact E|]. exfalso. exact (H _ (as_uuid_nonzero s E)).
Qed.
Print Assumptions C52_other_text_is_nil.

Example C52_case :
  uuid_string 0xa2a7a23e975b4b54968c150d4c32a9b6 = str "a2a7a23e-975b-4b54-968c-150d4c32a9b6" /\
  as_uuid (str "{A2A7A23E-975B-4b54-968c-150d4c32a9b6}") = 0xa2a7a23e975b4b54968c150d4c32a9b6 /\
  as_uuid (str "urn:uuid:a2a7a23e-975b-4b54-968c-150d4c32a9b6") = 0xa2a7a23e975b4b54968c150d4c32a9b6 /\
  as_uuid (str "a2a7a23e-975b-4b54-968c-150d4c32a9bg") = 0 /\ as_uuid (str "{") = 0 /\ as_uuid [] = 0.
Proof. vm_compute. repeat split; reflexivity. Qed.

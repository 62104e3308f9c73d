(** Vocabulary for files: the pairs a file of a version stores faithfully. *)
From Verif Require Import Base CodePairModel CodePairSpec VersionModel.
Open Scope N_scope.

(** Text files use escapes up to R2004, and are read as UTF-8 from R2007 on. Pairs with code 999 are comments. *)
Definition file_encoding (v : version) : encoding := if version_leb R2007 v then UTF_8 else WINDOWS_1252.
Definition text_storable (v : version) (p : pair) : Prop :=
  typed p /\ text_faithful (version_leb v R2004) (file_encoding v) (p_value p) /\ p_code p <> 999%Z.
Definition binary_storable (v : version) (p : pair) : Prop :=
  typed p /\ binary_faithful (version_leb R13 v) (p_value p) /\ p_code p <> 999%Z.

(** File versions. Definitions only. *)
From Verif Require Import Base.

(** src/enums.rs:21-43 [AcadVersion]. *)
Inductive version : Type :=
| Version_1_0 | Version_1_2 | Version_1_40 | Version_2_05 | Version_2_10 | Version_2_21 | Version_2_22
| Version_2_5 | Version_2_6 | R9 | R10 | R11 | R12 | R13 | R14 | R2000 | R2004 | R2007 | R2010 | R2013 | R2018.

(** The derived [PartialOrd] (src/enums.rs:19) compares declaration positions. *)
Definition version_index (v : version) : N :=
  match v with
  | Version_1_0 => 0 | Version_1_2 => 1 | Version_1_40 => 2 | Version_2_05 => 3 | Version_2_10 => 4
  | Version_2_21 => 5 | Version_2_22 => 6 | Version_2_5 => 7 | Version_2_6 => 8 | R9 => 9 | R10 => 10
  | R11 => 11 | R12 => 12 | R13 => 13 | R14 => 14 | R2000 => 15 | R2004 => 16 | R2007 => 17 | R2010 => 18
  | R2013 => 19 | R2018 => 20
  end.
Definition version_leb (a b : version) : bool := (version_index a <=? version_index b)%N.
Definition version_ltb (a b : version) : bool := (version_index a <? version_index b)%N.
Definition version_eqb (a b : version) : bool := (version_index a =? version_index b)%N.

(** src/enums.rs:99-126 [Display for AcadVersion]. *)
Definition version_text (v : version) : rstring :=
  match v with
  | Version_1_0 => str "MC0.0" | Version_1_2 => str "AC1.2" | Version_1_40 => str "AC1.40"
  | Version_2_05 => str "AC1.50" | Version_2_10 => str "AC2.10" | Version_2_21 => str "AC2.21"
  | Version_2_22 => str "AC2.22" | Version_2_5 => str "AC1002" | Version_2_6 => str "AC1003"
  | R9 => str "AC1004" | R10 => str "AC1006" | R11 => str "AC1009" | R12 => str "AC1009"
  | R13 => str "AC1012" | R14 => str "AC1014" | R2000 => str "AC1015" | R2004 => str "AC1018"
  | R2007 => str "AC1021" | R2010 => str "AC1024" | R2013 => str "AC1027" | R2018 => str "AC1032"
  end.

(** src/enums.rs:46-89 [AcadVersion::from]: the match as an association list, first hit wins. *)
Definition version_texts : list (rstring * version) :=
  [(str "MC0.0", Version_1_0); (str "AC1.2", Version_1_2); (str "AC1.40", Version_1_40); (str "AC1.50", Version_2_05);
   (str "AC2.10", Version_2_10); (str "AC2.21", Version_2_21); (str "AC2.22", Version_2_22); (str "AC1001", Version_2_22);
   (str "AC1002", Version_2_5); (str "AC1003", Version_2_6); (str "AC1004", R9); (str "AC1006", R10); (str "AC1009", R12);
   (str "AC1011", R13); (str "AC1012", R13); (str "AC1014", R14); (str "14", R14); (str "14.01", R14);
   (str "AC1015", R2000); (str "15.0", R2000); (str "15.05", R2000); (str "15.06", R2000);
   (str "AC1018", R2004); (str "16.0", R2004); (str "16.1", R2004); (str "16.2", R2004);
   (str "AC1021", R2007); (str "17.0", R2007); (str "17.1", R2007); (str "17.2", R2007);
   (str "AC1024", R2010); (str "18.0", R2010); (str "18.1", R2010); (str "18.2", R2010);
   (str "AC1027", R2013); (str "19.0", R2013); (str "19.1", R2013); (str "19.2", R2013); (str "19.3", R2013);
   (str "AC1032", R2018)].
Fixpoint assoc_str {A} (s : rstring) (l : list (rstring * A)) : option A :=
  match l with
  | [] => None
  | (k, v) :: r => if seqb s k then Some v else assoc_str s r
  end.
Definition version_from (s : rstring) : res version :=
  match assoc_str s version_texts with Some v => Ok v | None => Err (UnexpectedEnumValue 0) end.
(** src/enums.rs:90-95 [from_safe]. *)
Definition version_from_safe (s : rstring) : version :=
  match version_from s with Ok v => v | Err _ => R12 end.

(** Class definitions and the head of a block, as data for the interpreter of SpecModel.v (src/class.rs, src/block.rs). *)
From Verif Require Import Base VersionModel SpecModel SpecSpec.
Open Scope Z_scope.
Local Open Scope string_scope.

(** src/class.rs:7-28, 96-110 [Class] and its default. [instance_count] is a [usize]: the integer here is the signed 64-bit integer with the same
    bits, so that [as usize] of an i32 does not change it and [as i32] takes its low 32 bits. *)
Definition class_defaults : list (string * fval) :=
  [("record_name", FStr []); ("class_name", FStr []); ("application_name", FStr []); ("version_number", FInt 0);
   ("proxy_capability_flags", FInt 0); ("instance_count", FInt 0); ("was_class_loaded_with_file", FBool true); ("is_entity", FBool false)].
Definition class_tail_arms : list arm :=
  [mk_arm 91 [] [ASet "instance_count" RI32]; mk_arm 280 [] [ASet "was_class_loaded_with_file" RNotBool]; mk_arm 281 [] [ASet "is_entity" RAsBool]].
Definition class_tail_cmds : list cmd :=
  [WPair [] 280 "was_class_loaded_with_file" WNotI16; WPair [] 281 "is_entity" WAsI16].
Definition class_tail_fields : list field :=
  [mk_field "instance_count" (KInt (- 2 ^ 63) (2 ^ 63 - 1)) true [91] [mk_win (Some R2004) None false None] [];
   mk_field "was_class_loaded_with_file" KBool true [280] [mk_win None None false None] [];
   mk_field "is_entity" KBool true [281] [mk_win None None false None] []].
(** Up to R13 (reader src/class.rs:160-213, writer 148-158): the record name is the value of the 0 pair, so it has no arm of its own. *)
Definition class_old : itype := mk_itype
  (mk_spec "Class" [] None (Some R13) class_defaults
    ([mk_arm 1 [] [ASet "class_name" RStr]; mk_arm 2 [] [ASet "application_name" RStr]; mk_arm 90 [] [ASet "version_number" RI32]] ++ class_tail_arms)
    [] false [] []
    ([WPair [] 1 "class_name" WStr; WPair [] 2 "application_name" WStr; WPair [] 90 "version_number" WI32] ++ class_tail_cmds))
  ([mk_field "class_name" KStr true [1] [mk_win None None false None] [];
    mk_field "application_name" KStr true [2] [mk_win None None false None] [];
    mk_field "version_number" (KInt (- 2 ^ 31) (2 ^ 31 - 1)) true [90] [mk_win None (Some R13) false None] [];
    mk_field "proxy_capability_flags" (KInt (- 2 ^ 31) (2 ^ 31 - 1)) true [] [mk_win (Some R14) None false None] []] ++ class_tail_fields).
(** From R14 on (reader src/class.rs:160-213, writer 139-147, 154-158). *)
Definition class_new : itype := mk_itype
  (mk_spec "Class" (str "CLASS") (Some R14) None class_defaults
    ([mk_arm 1 [] [ASet "record_name" RStr]; mk_arm 2 [] [ASet "class_name" RStr]; mk_arm 3 [] [ASet "application_name" RStr];
      mk_arm 90 [] [ASet "proxy_capability_flags" RI32]] ++ class_tail_arms)
    [] false [] []
    ([WPair [] 1 "record_name" WStr; WPair [] 2 "class_name" WStr; WPair [] 3 "application_name" WStr;
      WPair [] 90 "proxy_capability_flags" WI32; WPair [CMin R2004] 91 "instance_count" WI32] ++ class_tail_cmds))
  ([mk_field "record_name" KStr true [1] [mk_win None None false None] [];
    mk_field "class_name" KStr true [2] [mk_win None None false None] [];
    mk_field "application_name" KStr true [3] [mk_win None None false None] [];
    mk_field "version_number" (KInt (- 2 ^ 31) (2 ^ 31 - 1)) true [] [mk_win None (Some R13) false None] [];
    mk_field "proxy_capability_flags" (KInt (- 2 ^ 31) (2 ^ 31 - 1)) true [90] [mk_win (Some R14) None false None] []] ++ class_tail_fields).

(** src/block.rs:12-40, 96-113 [Block] and its default, without its entities; the arms are those of [read_block] (155-190) for pairs other than 0, the
    commands those of [add_code_pairs] (203-248) from behind 0/BLOCK up to the first entity. Code 3 is ignored (159). Extended data is
    read but not written there. *)
Definition block_head : itype := mk_itype
  (mk_spec "Block" (str "BLOCK") None None
    [("handle", FHandle 0); ("__owner_handle", FHandle 0); ("layer", FStr (str "0")); ("name", FStr []); ("flags", FInt 0);
     ("base_point.x", FF64 0); ("base_point.y", FF64 0); ("base_point.z", FF64 0); ("xref_path_name", FStr []); ("description", FStr []);
     ("is_in_paperspace", FBool false); ("extension_data_groups", FList []); ("x_data", FList [])]
    [mk_arm 1 [] [ASet "xref_path_name" RStr]; mk_arm 2 [] [ASet "name" RStr]; mk_arm 4 [] [ASet "description" RStr];
     mk_arm 5 [] [ASet "handle" RHandle]; mk_arm 8 [] [ASet "layer" RStr];
     mk_arm 10 [] [ASet "base_point.x" RF64]; mk_arm 20 [] [ASet "base_point.y" RF64]; mk_arm 30 [] [ASet "base_point.z" RF64];
     mk_arm 67 [] [ASet "is_in_paperspace" RAsBool]; mk_arm 70 [] [ASet "flags" RI16]; mk_arm 330 [] [ASet "__owner_handle" RHandle];
     mk_arm 102 [] [AExt "extension_data_groups"]; mk_arm 1001 [] [AXdata "x_data"]]
    [] false [] []
    [WPair [CHandles; CMin R13] 5 "handle" WHandle;
     WExts [CMin R14] "extension_data_groups";
     WPair [CMin R13; CNe [("__owner_handle", FHandle 0)]] 330 "__owner_handle" WHandle;
     WConst [CMin R13] (mk_pair 100 (VStr (str "AcDbEntity")));
     WPair [CNe [("is_in_paperspace", FBool false)]] 67 "is_in_paperspace" WAsI16;
     WPair [] 8 "layer" WStr;
     WConst [CMin R13] (mk_pair 100 (VStr (str "AcDbBlockBegin")));
     WPair [] 2 "name" WStr;
     WPair [] 70 "flags" WI16;
     WPair [] 10 "base_point.x" WF64; WPair [] 20 "base_point.y" WF64; WPair [] 30 "base_point.z" WF64;
     WPair [CMin R12] 3 "name" WStr;
     WPair [] 1 "xref_path_name" WStr;
     WPair [CNe [("description", FStr [])]] 4 "description" WStr])
  [mk_field "handle" KHandle true [5] [mk_win (Some R13) None true None] [];
   mk_field "__owner_handle" KHandle true [330] [mk_win (Some R13) None false None] [];
   mk_field "layer" KStr true [8] [mk_win None None false None] [];
   mk_field "name" KStr true [2] [mk_win None None false None] [];
   mk_field "flags" (KInt (- 2 ^ 31) (2 ^ 31 - 1)) true [70] [mk_win None None false None] [];
   mk_field "base_point.x" KF64 true [10] [mk_win None None false None] [];
   mk_field "base_point.y" KF64 true [20] [mk_win None None false None] [];
   mk_field "base_point.z" KF64 true [30] [mk_win None None false None] [];
   mk_field "xref_path_name" KStr true [1] [mk_win None None false None] [];
   mk_field "description" KStr true [4] [mk_win None None false None] [];
   mk_field "is_in_paperspace" KBool true [67] [mk_win None None false None] [];
   mk_field "extension_data_groups" (KList KExt) true [102] [mk_win (Some R14) None false None] [];
   mk_field "x_data" (KList KXd) true [1001] [mk_win (Some R2000) None false None] []].

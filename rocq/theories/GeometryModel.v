(** Points given as separate coordinate lists, and transformation matrices. Definitions only. *)
From Verif Require Export Base F64Model.
Open Scope N_scope.

(** src/point.rs [Point] and src/vector.rs [Vector]: three doubles. *)
Record point : Type := mk_point { pt_x : N; pt_y : N; pt_z : N }.

(** src/helper_functions.rs:173-186 [combine_points_2]: the new contents of [v1], [v2] and [result]. *)
Definition combine_points_2 {T} (comb : N -> N -> N -> T) (v1 v2 : list N) (result : list T) : list N * list N * list T :=
  ([], [], result ++ map (fun '(x, y) => comb x y 0) (combine v1 v2)).
(** src/helper_functions.rs:188-203 [combine_points_3]. *)
Definition combine_points_3 {T} (comb : N -> N -> N -> T) (v1 v2 v3 : list N) (result : list T)
  : list N * list N * list N * list T :=
  ([], [], [], result ++ map (fun '(x, (y, z)) => comb x y z) (combine v1 (combine v2 v3))).

(** src/transformation_matrix.rs:4-21 [TransformationMatrix]. *)
Record matrix : Type := mk_matrix {
  m11 : N; m12 : N; m13 : N; m14 : N;
  m21 : N; m22 : N; m23 : N; m24 : N;
  m31 : N; m32 : N; m33 : N; m34 : N;
  m41 : N; m42 : N; m43 : N; m44 : N }.
(** src/transformation_matrix.rs:74-80 [value_or_default]. *)
Definition value_or_default (values : list N) (i : nat) : N :=
  match nth_error values i with Some v => v | None => 0 end.
(** src/transformation_matrix.rs:38-57 [from_vec]. *)
Definition matrix_from_vec (values : list N) : matrix :=
  let v := value_or_default values in
  mk_matrix (v 0%nat) (v 1%nat) (v 2%nat) (v 3%nat) (v 4%nat) (v 5%nat) (v 6%nat) (v 7%nat)
            (v 8%nat) (v 9%nat) (v 10%nat) (v 11%nat) (v 12%nat) (v 13%nat) (v 14%nat) (v 15%nat).
(** src/transformation_matrix.rs:58-63 [values]. *)
Definition matrix_values (m : matrix) : list N :=
  [m11 m; m12 m; m13 m; m14 m; m21 m; m22 m; m23 m; m24 m;
   m31 m; m32 m; m33 m; m34 m; m41 m; m42 m; m43 m; m44 m].
(** src/transformation_matrix.rs:64-69 [values_row_major_4x3]. *)
Definition matrix_values_4x3 (m : matrix) : list N :=
  [m11 m; m21 m; m31 m; m12 m; m22 m; m32 m; m13 m; m23 m; m33 m; m14 m; m24 m; m34 m].
(** src/transformation_matrix.rs:25-33 [identity]; 1.0 is 0x3FF0000000000000. *)
Definition matrix_identity : matrix :=
  let o := 0x3FF0000000000000 in mk_matrix o 0 0 0 0 o 0 0 0 0 o 0 0 0 0 o.
(** src/object.rs:1215-1232: the matrix the spatial filter reader builds from twelve numbers. *)
Definition matrix_from_12 (l : list N) : matrix :=
  let v := value_or_default l in
  matrix_from_vec [v 0%nat; v 1%nat; v 2%nat; 0; v 3%nat; v 4%nat; v 5%nat; 0;
                   v 6%nat; v 7%nat; v 8%nat; 0; v 9%nat; v 10%nat; v 11%nat; 0].

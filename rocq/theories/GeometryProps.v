(** Properties C41 and C42. *)
From Verif Require Import Base GeometryModel.
Open Scope N_scope.

(** C41. Splitting any list of points into coordinate lists and recombining them appends exactly those points, in
    order, and leaves the coordinate lists empty. *)
Lemma combine_split3 : forall pts : list point,
  map (fun '(x, (y, z)) => mk_point x y z) (combine (map pt_x pts) (combine (map pt_y pts) (map pt_z pts))) = pts.
Proof. induction pts as [|[x y z] pts IH]; cbn; [reflexivity|]. rewrite IH. reflexivity. Qed.
Lemma combine_split2 : forall pts : list point,
  map (fun '(x, y) => mk_point x y 0) (combine (map pt_x pts) (map pt_y pts)) = map (fun p => mk_point (pt_x p) (pt_y p) 0) pts.
Proof. induction pts as [|[x y z] pts IH]; cbn; [reflexivity|]. rewrite IH. reflexivity. Qed.

Theorem C41_points_recombined : forall pts before,
  combine_points_3 mk_point (map pt_x pts) (map pt_y pts) (map pt_z pts) before = ([], [], [], before ++ pts).
Proof. intros pts before. unfold combine_points_3. rewrite combine_split3. reflexivity. Qed.
Print Assumptions C41_points_recombined.
Theorem C41_flat_points_recombined : forall pts before, Forall (fun p => pt_z p = 0) pts ->
  combine_points_2 mk_point (map pt_x pts) (map pt_y pts) before = ([], [], before ++ pts).
Proof.
  intros pts before H. unfold combine_points_2. rewrite combine_split2. do 2 f_equal.
  induction H as [|[x y z] pts Hz _ IH]; [reflexivity|]. cbn in *. rewrite IH, Hz. reflexivity.
Qed.
Print Assumptions C41_flat_points_recombined.

(** For coordinate lists of any lengths: point number [i] is made of the coordinates number [i], as long as there
    are that many of each; nothing else is added. *)
Lemma nth_error_combine : forall A B (l : list A) (m : list B) i,
  nth_error (combine l m) i =
  match nth_error l i, nth_error m i with Some x, Some y => Some (x, y) | _, _ => None end.
Proof.
  intros A B. induction l as [|x l IH]; intros [|y m] [|i]; cbn; try reflexivity.
  - destruct (nth_error l i); reflexivity.
  - apply IH.
Qed.
Theorem C41_points_by_position : forall xs ys zs i,
  let '(xs', ys', zs', pts) := combine_points_3 mk_point xs ys zs [] in
  xs' = [] /\ ys' = [] /\ zs' = [] /\
  nth_error pts i =
  match nth_error xs i, nth_error ys i, nth_error zs i with
  | Some x, Some y, Some z => Some (mk_point x y z)
  | _, _, _ => None
  end.
Proof.
  intros xs ys zs i. cbn. repeat split. rewrite nth_error_map, !nth_error_combine.
  destruct (nth_error xs i), (nth_error ys i), (nth_error zs i); reflexivity.
Qed.
Print Assumptions C41_points_by_position.
Example C41_case : combine_points_3 mk_point [1; 2] [3; 4] [5; 6] [mk_point 7 8 9]
  = ([], [], [], [mk_point 7 8 9; mk_point 1 3 5; mk_point 2 4 6]) /\
  combine_points_2 mk_point [1; 2; 3] [4; 5] [] = ([], [], [mk_point 1 4 0; mk_point 2 5 0]).
Proof. split; reflexivity. Qed.

(** C42. *)
Theorem C42_matrix_roundtrip : forall m, matrix_from_vec (matrix_values m) = m.
Proof. intros []. reflexivity. Qed.
Print Assumptions C42_matrix_roundtrip.
Theorem C42_values_roundtrip : forall l, length l = 16%nat -> matrix_values (matrix_from_vec l) = l.
Proof.
  intros l H. do 16 (destruct l as [|? l]; [discriminate H|]). destruct l; [reflexivity|discriminate H].
Qed.
Print Assumptions C42_values_roundtrip.
(** A list of another length is padded with zeros or cut to sixteen numbers, it never fails. *)
Theorem C42_any_list : forall l, matrix_values (matrix_from_vec l) = firstn 16 (l ++ repeat 0 16).
Proof. intros l. do 16 (destruct l as [|? l]; [reflexivity|]). reflexivity. Qed.
Print Assumptions C42_any_list.
(** The twelve numbers a spatial filter writes for a matrix are read back as the transposed matrix, without its
    last column: even the identity is not read back. *)
Theorem C42_spatial_filter_matrix_refuted : exists m, matrix_from_12 (matrix_values_4x3 m) <> m.
Proof. exists matrix_identity. vm_compute. discriminate. Qed.
Print Assumptions C42_spatial_filter_matrix_refuted.
Theorem C42_spatial_filter_matrix : forall m, matrix_from_12 (matrix_values_4x3 m) =
  mk_matrix (m11 m) (m21 m) (m31 m) 0 (m12 m) (m22 m) (m32 m) 0 (m13 m) (m23 m) (m33 m) 0 (m14 m) (m24 m) (m34 m) 0.
Proof. intros []. reflexivity. Qed.
Print Assumptions C42_spatial_filter_matrix.
Example C42_case : matrix_values (matrix_from_vec [1;2;3;4;5;6;7;8;9;10;11;12;13;14;15;16]) = [1;2;3;4;5;6;7;8;9;10;11;12;13;14;15;16]
  /\ matrix_values (matrix_from_vec [1; 2]) = 1 :: 2 :: repeat 0 14.
Proof. split; reflexivity. Qed.

(** The vertices of lightweight polylines, as the DXF reference describes them: every 10 begins a vertex, the pairs up to the next 10 belong to it (C70). *)
From Verif Require Import Base CodePairModel VersionModel SpecModel ListSpec.
Open Scope string_scope.
Open Scope list_scope.
Open Scope Z_scope.

Record vertex : Type := mk_vertex { ve_x : N; ve_y : N; ve_start : N; ve_end : N; ve_bulge : N; ve_id : Z }.
Definition vertex_value (w : vertex) : fval := FList [FF64 (ve_x w); FF64 (ve_y w); FF64 (ve_start w); FF64 (ve_end w); FF64 (ve_bulge w); FInt (ve_id w)].
(** "LWPOLYLINE": 10 and 20 the place, 40 and 41 the widths, 42 the bulge, 91 the identifier. *)
Definition of_vertex (p : pair) : bool := existsb (Z.eqb (p_code p)) [10; 20; 40; 41; 42; 91].
Definition begins_vertex (g : list pair) : Prop := exists p r, g = p :: r /\ p_code p = 10 /\ Forall (fun q => p_code q <> 10) r.
(** The last value given under a code, 0 if there is none. *)
Definition real_in (c : Z) (g : list pair) : N := match last (under c g) (VDouble 0) with VDouble d => d | _ => 0%N end.
Definition whole_in (c : Z) (g : list pair) : Z := match last (under c g) (VInt 0) with VInt z => z | _ => 0 end.
Definition vertex_of (g : list pair) : vertex := mk_vertex (real_in 10 g) (real_in 20 g) (real_in 40 g) (real_in 41 g) (real_in 42 g) (whole_in 91 g).
(** The pairs of the vertices, among all others. *)
Definition vertices_of (ps : list pair) (gs : list (list pair)) : Prop := filter of_vertex ps = concat gs /\ Forall begins_vertex gs.
(** The pairs stand for the vertex: widths and bulges that are 0 may be left out, and so may identifiers before R2013. *)
Definition same_or_zero (a b : N) : Prop := a = b \/ (a = 0%N /\ (b mod 2 ^ 63 = 0)%N).
Definition stands_for (v : version) (g : list pair) (w : vertex) : Prop :=
  real_in 10 g = ve_x w /\ real_in 20 g = ve_y w /\ same_or_zero (real_in 40 g) (ve_start w) /\ same_or_zero (real_in 41 g) (ve_end w) /\ same_or_zero (real_in 42 g) (ve_bulge w) /\
  (if version_leb R2013 v then whole_in 91 g = ve_id w else under 91 g = []).

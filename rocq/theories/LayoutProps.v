(** Group codes of layouts (C61). *)
From Verif Require Import Base F64Model CodePairModel CodePairSpec VersionModel SpecModel SpecSpec DrawingModel DocSpec FileModel ObjectData DocProofs DimensionSpec LayoutSpec LayoutProofs.
Open Scope string_scope.
Open Scope list_scope.
Open Scope Z_scope.
Set Default Goal Selector "!".

(** The fields of a layout are what the last pairs behind the first marker AcDbLayout say, where 330 is the view port; before the marker 330 is the owner. *)
Theorem C61_reading_layouts base own nx rest o r : plain base -> ~ In layout_mark base -> plain own -> p_code nx = 0 -> read_item (it_spec obj_layout) (map Ok (base ++ layout_mark :: own) ++ Ok nx :: rest) = Ok (o, r) ->
  r = Ok nx :: rest /\ exists st, o = Some st /\ field_follows (base ++ layout_mark :: own) st handle_row /\ field_follows base st owner_row /\ forall w, In w layout_rows -> field_follows own st w.
Proof. exact (layout_follows base own nx rest o r). Qed.
Print Assumptions C61_reading_layouts.
Theorem C61_writing_layouts v st ps : version_leb R2000 v = true -> as_list (st "common.extension_data_groups") = [] -> as_list (st "common.x_data") = [] -> write_typed obj_layout v true st (Ok []) = Ok ps ->
  exists base own, ps = mk_pair 0 (VStr (str "LAYOUT")) :: base ++ layout_mark :: own /\ ~ In layout_mark base /\ pairs_follow base st handle_row /\ pairs_follow base st owner_row /\
    forall w, In w layout_rows -> version_leb (rw_since w) v = true -> pairs_follow own st w.
Proof. intros V G1 G2 W. refine (layout_pairs_follow v st ps V _ W). intros s [<-|[<-|[]]]; assumption. Qed.
Print Assumptions C61_writing_layouts.
(** A layout with a page setup: 1 is the name of the setup before the marker, 44 the width of the paper, 1 the name of the layout behind the marker. *)
Definition setup_pairs : list pair := [mk_pair 5 (VStr (str "22")); mk_pair 330 (VStr (str "1A")); marker_of "AcDbPlotSettings"; mk_pair 1 (VStr (str "A4 portrait")); mk_pair 44 (VDouble one); mk_pair 70 (VShort 688)].
Definition layout_pairs : list pair := [mk_pair 1 (VStr (str "Layout1")); mk_pair 70 (VShort 1); mk_pair 71 (VShort 2); mk_pair 21 (VDouble one); mk_pair 330 (VStr (str "1F"))].
Definition layout_end : pair := mk_pair 0 (VStr (str "ENDSEC")).
Lemma setup_unmarked : ~ In layout_mark setup_pairs.
Proof. intros H. repeat (destruct H as [H|H]; [discriminate H|]). exact H. Qed.
Example C61_reading_layouts_ex : plain setup_pairs /\ ~ In layout_mark setup_pairs /\ plain layout_pairs /\
  match read_item (it_spec obj_layout) (map Ok (setup_pairs ++ layout_mark :: layout_pairs) ++ [Ok layout_end]) with
  | Ok (Some st, r) => (map st ["common.handle"; "common.__owner_handle"; "layout_flags"; "tab_order"; "maximum_limits.y"; "ucs_x_axis.x"; "__viewport_handle"], st "layout_name", length r)
  | _ => ([], FInt 0, O)
  end = ([FHandle 0x22; FHandle 0x1A; FInt 1; FInt 2; FF64 one; FF64 one; FHandle 0x1F], FStr (str "Layout1"), 1%nat).
Proof. split; [repeat constructor; cbn; lia|]. split; [exact setup_unmarked|]. split; [repeat constructor; cbn; lia|vm_compute; reflexivity]. Qed.
Definition layout_store : store := upd (upd (default_of (it_spec obj_layout)) "layout_name" (FStr (str "Layout1"))) "__viewport_handle" (FHandle 0x1F).
Example C61_writing_layouts_ex : as_list (layout_store "common.extension_data_groups") = [] /\ as_list (layout_store "common.x_data") = [] /\
  match write_typed obj_layout R2000 true layout_store (Ok []) with
  | Ok ps => map p_value (filter (fun p => existsb (Z.eqb (p_code p)) [0; 1; 100; 330]) ps) | _ => []
  end = [VStr (str "LAYOUT"); VStr (str "AcDbLayout"); VStr (str "Layout1"); VStr (str "1F")].
Proof. split; [|split]; vm_compute; reflexivity. Qed.
(** The page setup is lost: nothing with the code of the paper width is written for the layout that was read. *)
Definition setup_lost : bool :=
  match read_item (it_spec obj_layout) (map Ok (setup_pairs ++ layout_mark :: layout_pairs) ++ [Ok layout_end]) with
  | Ok (Some st, _) => match write_typed obj_layout R2018 true st (Ok []) with Ok ps => forallb (fun p => negb (p_code p =? 44)) ps | _ => false end
  | _ => false
  end.
Theorem C61_layout_setup_refuted : exists base own st r ps, plain base /\ last_under 44 base = Some (VDouble one) /\ read_item (it_spec obj_layout) (map Ok (base ++ layout_mark :: own) ++ [Ok layout_end]) = Ok (Some st, r) /\
  write_typed obj_layout R2018 true st (Ok []) = Ok ps /\ ~ exists p, In p ps /\ p_code p = 44.
Proof.
  assert (setup_lost = true) as L by (vm_compute; reflexivity). unfold setup_lost in L. destruct (read_item _ _) as [[[st|] r]|] eqn:E; try discriminate L. destruct (write_typed _ _ _ _ _) as [ps|] eqn:W; [|discriminate L].
  exists setup_pairs, layout_pairs, st, r, ps. split; [repeat constructor; cbn; lia|]. split; [reflexivity|]. split; [exact E|]. split; [exact W|]. intros (p & Hp & Hc). rewrite forallb_forall in L. specialize (L p Hp). rewrite Hc in L. discriminate L.
Qed.
Print Assumptions C61_layout_setup_refuted.

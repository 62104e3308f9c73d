(** C30, within blocks: a malformed pair costs the entity it is in. *)
From Verif Require Import Base CodePairModel CodePairProofs ReaderProofs ExtDataModel SpecModel SpecSpec EntityData SectionData DrawingModel FileModel LoadSpec ErrorProofs BlockErrorProofs.
Open Scope string_scope.
Open Scope list_scope.
Open Scope Z_scope.
Set Default Goal Selector "!".
Local Notation item := LoadSpec.item.

(** [head] are fields of a block, [cs] whole entities (that need no others), then comes the entity [n] of which the pairs [c] are there before the malformed one;
    [left] are its remaining pairs and [z] starts the next entity or ends the block. The block is read, without a report, as if the damaged entity were not there
    and [left] stood among its fields: the entities before and after the damaged one are kept. *)
Theorem C30_block_entities_kept_partial : forall d head cs xs n c e left z tail d' r,
  field_codes head -> field_codes left -> Forall2 (fun c x => whole (fst c) (snd c) x) cs xs -> broken_off n c -> genuine e -> p_code z = 0 -> reports (Ok z :: tail) ->
  read_block d (mended head cs left z tail) = Ok (d', r) -> read_block d (damaged head cs n c e left z tail) = Ok (d', r).
Proof.
  intros d head cs xs n c e left z tail d' r Fh Fl W B G Hz Hr H. unfold read_block in *.
  destruct (read_block_fuel (S (length (mended head cs left z tail))) (default_of (it_spec block_head)) [] (mended head cs left z tail)) as [[b r1]|] eqn:E; [|discriminate H]. cbn [bind] in H. injection H as <- <-.
  assert (X : read_block_fuel (S (length (damaged head cs n c e left z tail))) (default_of (it_spec block_head)) [] (damaged head cs n c e left z tail) = Ok (b, r1)); [|rewrite X; reflexivity].
  apply (block_more (S (S (length (mended head cs left z tail))))); [|eapply block_damaged; eassumption].
  unfold mended, damaged. repeat rewrite ?app_length, ?map_length. cbn [length]. repeat rewrite ?app_length, ?map_length. cbn [length]. rewrite ?app_length, ?map_length. cbn [length]. lia.
Qed.
Print Assumptions C30_block_entities_kept_partial.
(** Two lines, then a circle whose radius is malformed (its layer follows), then another circle. *)
Definition line_fields : list pair := [mk_pair 8 (VStr (str "a")); mk_pair 10 (VDouble 0x4000000000000000)].
Definition damaged_circle : list pair := [mk_pair 8 (VStr (str "b")); mk_pair 10 (VDouble 0)].
Definition rest_of_block : feed := map Ok [mk_pair 8 (VStr (str "c")); item "ENDBLK"; mk_pair 8 (VStr (str "a")); item "ENDSEC"].
Definition alone (n : string) (c : list pair) : raw := match read_entity (Ok (item n) :: map Ok c ++ [Ok (item "ENDSEC")]) with Ok (Some x, _) => x | _ => (block_head, default_of (it_spec block_head)) end.
Example C30_block_entities_kept_case :
  field_codes [mk_pair 2 (VStr (str "door"))] /\ field_codes [mk_pair 39 (VDouble 0)] /\
  (exists xs, Forall2 (fun c x => whole (fst c) (snd c) x) [("LINE", line_fields); ("LINE", [])] xs) /\ broken_off "CIRCLE" damaged_circle /\ reports (Ok (item "CIRCLE") :: rest_of_block) /\
  match read_block new_drawing (damaged [mk_pair 2 (VStr (str "door"))] [("LINE", line_fields); ("LINE", [])] "CIRCLE" damaged_circle (ParseError 0) [mk_pair 39 (VDouble 0)] (item "CIRCLE") rest_of_block) with
  | Ok (d, [Ok z]) => map (fun b => (bl_name b, map (fun e => (entity_type (en_specific e), en_layer e)) (bl_entities b))) (dr_blocks d) =
      [(str "door", [("Line", str "a"); ("Line", str "0"); ("Circle", str "c")])] /\ z = item "ENDSEC"
  | _ => False
  end.
Proof.
  split; [repeat (apply Forall_cons; [cbn [p_code]; lia|]); apply Forall_nil|]. split; [repeat (apply Forall_cons; [cbn [p_code]; lia|]); apply Forall_nil|]. split; [|split; [|split]].
  - exists [alone "LINE" line_fields; alone "LINE" []]. apply Forall2_cons; [|apply Forall2_cons; [|apply Forall2_nil]]; (split; [vm_compute; reflexivity|]); intros [zc zv] rest Hz; cbn [p_code fst snd] in *; subst zc; vm_compute; reflexivity.
  - intros e w. reflexivity.
  - intros e He. cbn in He. repeat (destruct He as [He|He]; [discriminate He|]). destruct He.
  - vm_compute. split; reflexivity.
Qed.

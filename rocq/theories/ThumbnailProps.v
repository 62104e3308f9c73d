(** Property C39. *)
From Verif Require Import Base StreamModel ThumbnailModel ThumbnailSpec ThumbnailProofs.
Open Scope N_scope.

(** C39. Whatever lines the stored bitmap is cut into and whatever length is announced, the result is a file header
    with the right file length and data offset, followed by the stored bytes. *)
Theorem C39_header_rebuilt : forall announced lines endp r h c, p_code endp = 0%Z ->
  dib h c (concat lines) -> 36 <= h -> 14 + h + 4 * c < 2147483648 -> N.of_nat (length (concat lines)) + 14 < 2147483648 ->
  read_thumbnail (Ok (new_i32 90 announced) :: map (fun b => Ok (new_binary 310 b)) lines ++ Ok endp :: r)
  = Ok (Some (file_header (N.of_nat (length (concat lines)) + 14) (14 + h + 4 * c) ++ concat lines), Ok endp :: r).
Proof. exact thumbnail_header_rebuilt. Qed.
Print Assumptions C39_header_rebuilt.

(** Writing strips what reading adds: every bitmap file with a consistent header is read back byte for byte, and the
    reader stops at the end of the section. *)
Theorem C39_thumbnail_roundtrip : forall v bmp r, version_leb R2000 v = true -> bitmap_file bmp ->
  exists s n ps, write_thumbnail v (Some bmp) = Ok (s :: n :: ps) /\ s = new_str 0 (str "SECTION") /\ n = new_str 2 (str "THUMBNAILIMAGE") /\
    read_thumbnail (map Ok ps ++ r) = Ok (Some bmp, Ok (new_str 0 (str "ENDSEC")) :: r).
Proof. exact thumbnail_roundtrip. Qed.
Print Assumptions C39_thumbnail_roundtrip.

(** Lines written are at most 128 bytes, so fit the one-byte length of the binary format. *)
Theorem C39_lines_are_short : forall l, Forall (fun c => (0 < length c <= 128)%nat) (chunks_of 128 l).
Proof. intros l. apply chunks_small. repeat constructor. Qed.
Print Assumptions C39_lines_are_short.

Definition demo_dib : bytes := le32 40 ++ repeat 7 28 ++ le32 2 ++ repeat 0 4 ++ [1; 2; 3; 4; 5; 6; 7; 8] ++ repeat 9 200.
Definition demo_bmp : bytes := file_header 262 62 ++ demo_dib.
Example C39_case : bitmap_file demo_bmp /\
  read_thumbnail [Ok (new_i32 90 0); Ok (new_binary 310 demo_dib); Ok (new_str 0 (str "ENDSEC"))] = Ok (Some demo_bmp, [Ok (new_str 0 (str "ENDSEC"))]).
Proof.
  split; [|vm_compute; reflexivity]. exists 40, 2, demo_dib. split.
  - exists (repeat 7 28). eexists. split; reflexivity.
  - repeat split; vm_compute; congruence.
Qed.

(** A stored header whose size has its top bit set makes the reader panic (in a build with overflow checks). *)
Theorem C39_large_header_refuted : exists it, Forall (fun x => exists p, x = Ok p) it /\ read_thumbnail it = Err Panic.
Proof.
  exists [Ok (new_i32 90 36); Ok (new_binary 310 (repeat 255 36)); Ok (new_str 0 (str "ENDSEC"))].
  split; [|vm_compute; reflexivity]. repeat constructor; eexists; reflexivity.
Qed.
Print Assumptions C39_large_header_refuted.

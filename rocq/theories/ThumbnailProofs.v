(** Lemmas for C39. *)
From Verif Require Import Base StreamModel ThumbnailModel ThumbnailSpec.
Open Scope N_scope.
Ltac Zify.zify_post_hook ::= Z.div_mod_to_equations.
Set Default Goal Selector "!".

Lemma read_u32_at : forall pre n rest, n < 4294967296 -> read_u32 (pre ++ le32 n ++ rest) (length pre) = Ok n.
Proof.
  intros pre n rest Hn. unfold read_u32, four_bytes. rewrite skipn_app, skipn_all, Nat.sub_diag. cbn [skipn app le32].
  f_equal. lia.
Qed.
Lemma read_i32_at : forall pre n rest, n < 2147483648 -> read_i32 (pre ++ le32 n ++ rest) (length pre) = Ok (Z.of_N n).
Proof.
  intros pre n rest Hn. unfold read_i32. rewrite read_u32_at by lia. cbn [bind]. f_equal.
  apply as_i32_id. unfold is_i32. lia.
Qed.
Lemma set_i32_at : forall pre old n rest, n < 2147483648 -> length old = 4%nat ->
  set_i32 (pre ++ old ++ rest) (length pre) (Z.of_N n) = Ok (pre ++ le32 n ++ rest).
Proof.
  intros pre old n rest Hn Ho. unfold set_i32, four_bytes.
  rewrite skipn_app, skipn_all, Nat.sub_diag. do 4 (destruct old as [|? old]; [discriminate Ho|]).
  destruct old; [|discriminate Ho]. cbn [skipn app].
  rewrite firstn_app, firstn_all, Nat.sub_diag. cbn [firstn]. rewrite app_nil_r. f_equal. f_equal.
  rewrite skipn_app. rewrite skipn_all2 by lia. replace (length pre + 4 - length pre)%nat with 4%nat by lia.
  cbn [skipn app]. unfold le32, as_u8. rewrite !Z.shiftr_div_pow2 by lia.
  change (2 ^ 8)%Z with 256%Z. change (2 ^ 16)%Z with 65536%Z. change (2 ^ 24)%Z with 16777216%Z.
  do 4 (apply (f_equal2 (@cons N)); [lia|]). reflexivity.
Qed.
Lemma as_i32_small : forall n, n < 2147483648 -> as_i32 (Z.of_N n) = Z.of_N n.
Proof. intros n H. apply as_i32_id. unfold is_i32. lia. Qed.

(** The reader collects the binary pairs up to the next pair of code 0. *)
Lemma read_hex_data_chunks : forall chunks data endp r, p_code endp = 0%Z ->
  read_hex_data (map (fun b => Ok (new_binary 310 b)) chunks ++ Ok endp :: r) data = Ok (data ++ concat chunks, Ok endp :: r).
Proof.
  induction chunks as [|b chunks IH]; intros data endp r H.
  - cbn. rewrite H. cbn. rewrite app_nil_r. reflexivity.
  - cbn [map app read_hex_data]. change (p_code (new_binary 310 b)) with 310%Z. change (310 =? 0)%Z with false. change (310 =? 310)%Z with true. cbv iota.
    change (assert_binary (new_binary 310 b)) with (Ok b). cbn [bind]. rewrite IH by assumption. cbn [concat]. rewrite app_assoc. reflexivity.
Qed.

Lemma le32_length : forall n, length (le32 n) = 4%nat.
Proof. reflexivity. Qed.

Lemma thumbnail_read_bytes : forall n chunks endp r, p_code endp = 0%Z ->
  N.of_nat (length (concat chunks)) + 14 < 2147483648 ->
  read_thumbnail_bytes (Ok (new_i32 90 n) :: map (fun b => Ok (new_binary 310 b)) chunks ++ Ok endp :: r)
  = Ok (Some (file_header (N.of_nat (length (concat chunks)) + 14) 0 ++ concat chunks), Ok endp :: r).
Proof.
  intros n chunks endp r He Hl. unfold read_thumbnail_bytes. change (p_code (new_i32 90 n)) with 90%Z.
  change (90 =? 0)%Z with false. change (90 =? 90)%Z with true. cbv iota. change (assert_i32 (new_i32 90 n)) with (Ok n). cbn [bind].
  rewrite read_hex_data_chunks by assumption. cbn [bind].
  remember (concat chunks) as payload eqn:Ep. clear Ep chunks.
  replace (Z.of_nat (length (bmp_file_header ++ payload))) with (Z.of_N (N.of_nat (length payload) + 14)).
  2:{ rewrite app_length. change (length bmp_file_header) with 14%nat. lia. }
  rewrite as_i32_small by assumption.
  change (bmp_file_header ++ payload) with ([66; 77] ++ [0; 0; 0; 0] ++ ([0; 0; 0; 0; 0; 0; 0; 0] ++ payload)).
  change 2%nat with (length [66; 77]) at 1. rewrite set_i32_at by (assumption || reflexivity). cbn [bind]. do 3 f_equal.
Qed.

Lemma thumbnail_offset : forall h c payload len, dib h c payload -> 36 <= h -> 14 + h + 4 * c < 2147483648 ->
  update_data_offset (file_header len 0 ++ payload) = Ok (true, file_header len (14 + h + 4 * c) ++ payload).
Proof.
  intros h c payload len (middle & rest & -> & Hm) Hh Ho. unfold update_data_offset.
  pose proof (read_i32_at (file_header len 0) h (middle ++ le32 c ++ rest) ltac:(lia)) as R1.
  change (length (file_header len 0)) with 14%nat in R1. rewrite R1. cbn [bind].
  pose proof (read_u32_at (file_header len 0 ++ le32 h ++ middle) c rest ltac:(lia)) as R2.
  rewrite <- !app_assoc in R2. rewrite !app_length, le32_length, Hm in R2.
  change (length (file_header len 0) + (4 + 28))%nat with 46%nat in R2. rewrite R2. cbn [bind].
  assert (U : as_usize (Z.of_N h) = h).
  { unfold as_usize. rewrite Z.mod_small; [lia|]. split; [lia|]. apply Z.lt_trans with 4294967296%Z; [lia|reflexivity]. }
  rewrite U. replace (36 <=? h) with true by lia.
  replace (2 ^ 64 <=? 14 + h + c * 4) with false.
  2:{ symmetry. apply N.leb_gt. apply N.lt_trans with 4294967296; [lia|reflexivity]. }
  replace (14 + h + c * 4) with (14 + h + 4 * c) by lia. rewrite as_i32_small by lia.
  pose proof (set_i32_at ([66; 77] ++ le32 len ++ [0; 0; 0; 0]) (le32 0) (14 + h + 4 * c) (le32 h ++ middle ++ le32 c ++ rest) ltac:(lia) eq_refl) as S1.
  change (length ([66; 77] ++ le32 len ++ [0; 0; 0; 0])) with 10%nat in S1.
  unfold file_header. rewrite <- !app_assoc in S1 |- *. rewrite S1. reflexivity.
Qed.

Lemma thumbnail_header_rebuilt : forall n chunks endp r h c, p_code endp = 0%Z ->
  dib h c (concat chunks) -> 36 <= h -> 14 + h + 4 * c < 2147483648 -> N.of_nat (length (concat chunks)) + 14 < 2147483648 ->
  read_thumbnail (Ok (new_i32 90 n) :: map (fun b => Ok (new_binary 310 b)) chunks ++ Ok endp :: r)
  = Ok (Some (file_header (N.of_nat (length (concat chunks)) + 14) (14 + h + 4 * c) ++ concat chunks), Ok endp :: r).
Proof.
  intros n chunks endp r h c He Hd Hh Ho Hl. unfold read_thumbnail. rewrite thumbnail_read_bytes by assumption. cbn [bind].
  rewrite (thumbnail_offset h c) by assumption. reflexivity.
Qed.

Lemma concat_chunks_fuel : forall fuel n l, (0 < n)%nat -> (length l <= fuel)%nat -> concat (chunks_fuel fuel n l) = l.
Proof.
  induction fuel as [|f IH]; intros n l Hn Hl.
  - destruct l; [reflexivity|cbn in Hl; lia].
  - destruct l as [|x l]; [reflexivity|]. cbn [chunks_fuel concat]. rewrite IH.
    + apply firstn_skipn.
    + assumption.
    + rewrite skipn_length. cbn [length] in *. lia.
Qed.
Lemma chunks_small : forall fuel n l, (0 < n)%nat -> Forall (fun c => (0 < length c <= n)%nat) (chunks_fuel fuel n l).
Proof.
  induction fuel as [|f IH]; intros n l Hn; cbn [chunks_fuel]; [constructor|]. destruct l as [|x l]; constructor.
  - rewrite firstn_length. cbn [length]. lia.
  - apply IH. assumption.
Qed.

Lemma thumbnail_roundtrip : forall v bmp r, version_leb R2000 v = true -> bitmap_file bmp ->
  exists s n ps, write_thumbnail v (Some bmp) = Ok (s :: n :: ps) /\ s = new_str 0 (str "SECTION") /\ n = new_str 2 (str "THUMBNAILIMAGE") /\
    read_thumbnail (map Ok ps ++ r) = Ok (Some bmp, Ok (new_str 0 (str "ENDSEC")) :: r).
Proof.
  intros v bmp r Hv (h & c & payload & Hd & Hh & Ho & Hl & ->). unfold write_thumbnail. rewrite Hv.
  change (skipn 14 (file_header (N.of_nat (length payload) + 14) (14 + h + 4 * c) ++ payload)) with payload.
  rewrite app_length. change (length (file_header _ _)) with 14%nat.
  replace (14 + length payload <? 14)%nat with false by lia.
  do 3 eexists. split; [reflexivity|]. split; [reflexivity|]. split; [reflexivity|].
  cbn [map app]. rewrite map_app, map_map, <- app_assoc. cbn [map app].
  pose proof (concat_chunks_fuel (length payload) 128 payload ltac:(lia) ltac:(lia)) as C. fold (chunks_of 128 payload) in C.
  rewrite (thumbnail_header_rebuilt _ (chunks_of 128 payload) _ r h c); rewrite ?C; try assumption; try reflexivity.
Qed.

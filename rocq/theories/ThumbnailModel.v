(** The THUMBNAILIMAGE section: rebuilding the bitmap file header. Decoding and encoding of the image itself
    (crate [image]) is not modelled; an image is the bytes of its BMP file. Definitions only. *)
From Verif Require Export StreamModel.
Open Scope N_scope.

(** The four bytes at [offset], or [None] past the end. *)
Definition four_bytes (data : bytes) (offset : nat) : option (N * N * N * N) :=
  match skipn offset data with
  | a :: b :: c :: d :: _ => Some (a, b, c, d)
  | _ => None
  end.
(** src/thumbnail.rs:223-234 [read_u32]. *)
Definition read_u32 (data : bytes) (offset : nat) : res N :=
  match four_bytes data offset with
  | Some (a, b, c, d) => Ok (a + b * 256 + c * 65536 + d * 16777216)
  | None => Err UnexpectedEndOfInput
  end.
(** src/thumbnail.rs:203-214 [read_i32]: the same bits as an i32. *)
Definition read_i32 (data : bytes) (offset : nat) : res Z :=
  let? n := read_u32 data offset in Ok (as_i32 (Z.of_N n)).
(** src/thumbnail.rs:243-254 [set_i32]. *)
Definition set_i32 (data : bytes) (offset : nat) (value : Z) : res bytes :=
  match four_bytes data offset with
  | Some _ => Ok (firstn offset data
                    ++ [as_u8 value; as_u8 (Z.shiftr value 8); as_u8 (Z.shiftr value 16); as_u8 (Z.shiftr value 24)]
                    ++ skipn (offset + 4) data)
  | None => Err UnexpectedEndOfInput
  end.

(** src/thumbnail.rs:41-47: the prepended file header. *)
Definition bmp_file_header : bytes := [66; 77; 0; 0; 0; 0; 0; 0; 0; 0; 0; 0; 0; 0].

(** src/thumbnail.rs:50-69: collecting the hex data. *)
Fixpoint read_hex_data (it : feed) (data : bytes) : res (bytes * feed) :=
  match it with
  | [] => Ok (data, [])
  | Err e :: _ => Err e
  | Ok p :: r =>
      if (p_code p =? 0)%Z then Ok (data, Ok p :: r)
      else if (p_code p =? 310)%Z then let? line := assert_binary p in read_hex_data r (data ++ line)
      else Err (UnexpectedCode (p_code p) 0)
  end.
(** src/thumbnail.rs:24-74 [read_thumbnail_bytes_from_code_pairs]. *)
Definition read_thumbnail_bytes (it : feed) : res (option bytes * feed) :=
  match it with
  | [] => Ok (None, [])
  | Err e :: _ => Err e
  | Ok p :: r =>
      if (p_code p =? 0)%Z then Ok (None, Ok p :: r)
      else if (p_code p =? 90)%Z then
        let? _ := assert_i32 p in
        let? (data, r) := read_hex_data r bmp_file_header in
        let? data := set_i32 data 2 (as_i32 (Z.of_nat (length data))) in
        Ok (Some data, r)
      else Err (UnexpectedCode (p_code p) 0)
  end.

(** [usize] of an i32 on a 64-bit target. *)
Definition as_usize (z : Z) : N := Z.to_N (z mod 2 ^ 64).
(** src/thumbnail.rs:76-96 [update_thumbnail_data_offset_in_situ]; a sum beyond 64 bits panics in a debug build. *)
Definition update_data_offset (data : bytes) : res (bool * bytes) :=
  let? dib := read_i32 data 14 in
  let dib := as_usize dib in
  if 36 <=? dib then
    let? colors := read_u32 data 46 in
    let offset := 14 + dib + colors * 4 in
    if 2 ^ 64 <=? offset then Err Panic
    else let? data := set_i32 data 10 (as_i32 (Z.of_N offset)) in Ok (true, data)
  else Ok (false, data).

(** src/thumbnail.rs:11-22 [read_thumbnail]; the image is represented by the bytes handed to the decoder. *)
Definition read_thumbnail (it : feed) : res (option bytes * feed) :=
  let? (d, r) := read_thumbnail_bytes it in
  match d with
  | Some data => let? (ok, data) := update_data_offset data in
                 Ok (if ok then Some data else None, r)
  | None => Ok (None, r)
  end.

(** [slice::chunks] (std). *)
Fixpoint chunks_fuel (fuel : nat) (n : nat) (l : bytes) : list bytes :=
  match fuel, l with
  | O, _ | _, [] => []
  | S f, _ => firstn n l :: chunks_fuel f n (skipn n l)
  end.
Definition chunks_of (n : nat) (l : bytes) : list bytes := chunks_fuel (length l) n l.

(** src/drawing.rs:956-972 [add_thumbnail_pairs] for the file [bmp] the encoder produced; indexing past the end
    of a file shorter than its header panics. *)
Definition write_thumbnail (v : version) (thumbnail : option bytes) : res (list pair) :=
  match thumbnail with
  | Some bmp =>
      if version_leb R2000 v then
        if (length bmp <? 14)%nat then Err Panic
        else Ok ([new_str 0 (str "SECTION"); new_str 2 (str "THUMBNAILIMAGE");
                  new_i32 90 (as_i32 (Z.of_nat (length bmp) - 14))]
                 ++ map (new_binary 310) (chunks_of 128 (skipn 14 bmp))
                 ++ [new_str 0 (str "ENDSEC")])
      else Ok []
  | None => Ok []
  end.

(** The layout of a bitmap file. *)
From Verif Require Import Base StreamModel.
Open Scope N_scope.

(** Four bytes, least significant first. *)
Definition le32 (n : N) : bytes := [n mod 256; n / 256 mod 256; n / 65536 mod 256; n / 16777216 mod 256].

(** A file header of 14 bytes: "BM", the length of the file, four reserved bytes, the offset of the image data. *)
Definition file_header (file_length data_offset : N) : bytes := [66; 77] ++ le32 file_length ++ [0; 0; 0; 0] ++ le32 data_offset.

(** The part after the file header ("device independent bitmap"): starts with the size [h] of its own header, which
    has the number [c] of palette entries at offset 32. *)
Definition dib (h c : N) (payload : bytes) : Prop :=
  exists middle rest, payload = le32 h ++ middle ++ le32 c ++ rest /\ length middle = 28%nat.

(** A bitmap file whose header agrees with its contents. *)
Definition bitmap_file (bmp : bytes) : Prop :=
  exists h c payload, dib h c payload /\ 36 <= h /\ 14 + h + 4 * c < 2147483648 /\ N.of_nat (length payload) + 14 < 2147483648 /\
  bmp = file_header (N.of_nat (length payload) + 14) (14 + h + 4 * c) ++ payload.

(** Saving a drawing to bytes and loading it from bytes. Definitions only. *)
From Verif Require Export Base CodePairModel VersionModel StreamModel SpecModel DrawingModel FileModel.
From Verif Require DxbModel.
Open Scope N_scope.

(** src/code_pair_put_back.rs:25-37 [next] with nothing put back: comments are skipped. [fuel] bounds the number of pairs. *)
Fixpoint next_pair (fuel : nat) (rd : reader) : option (res pair) * reader :=
  match fuel with
  | O => (Some (Err OutOfFuel), rd)
  | S f => match reader_next rd with
           | (None, rd') => (None, rd')
           | (Some (Err e), rd') => (Some (Err e), rd')
           | (Some (Ok (p, _)), rd') => if (p_code p =? 999)%Z then next_pair f rd' else (Some (Ok p), rd')
           end
  end.
(** What [next] delivers up to the end, each item with the reader that is left when it is next.
    Simplification: a text reader that has returned [None] at a blank code line could be asked again; here the first [None] is the end. *)
Fixpoint trace (fuel : nat) (rd : reader) : list (reader * res pair) :=
  match fuel with
  | O => [(rd, Err OutOfFuel)]
  | S f => match next_pair fuel rd with
           | (None, _) => []
           | (Some x, rd') => (rd, x) :: trace f rd'
           end
  end.
(** Every item takes at least one byte (the first line has been read already). *)
Definition reader_fuel (rd : reader) : nat :=
  match rd with
  | CodePairModel.RText st => S (S (length (t_rest st)))
  | CodePairModel.RBin st => S (S (length (b_rest st)))
  end.
Definition feed_of (rd : reader) : feed := map snd (trace (reader_fuel rd) rd).
(** src/code_pair_put_back.rs:17-19 [read_as_utf8]: what is still to be read, [it], is decoded anew. *)
Definition feed_as_utf8 (rd : reader) (it : feed) : feed :=
  let tr := trace (reader_fuel rd) rd in
  match nth_error tr (length tr - length it) with
  | Some (at_it, _) => feed_of (read_as_utf8 at_it)
  | None => []
  end.
(** src/drawing.rs:106-127 [load_with_encoding] and 130-147 [load_from_iter]. A file whose first line is that of a DXB file is read as one. *)
Definition after_dxb_line (enc : encoding) (bs : bytes) : option bytes :=
  match read_line true enc bs with
  | (Ok l, r) => if seqb l DxbModel.dxb_line then Some r else None
  | _ => None
  end.
Definition load_bytes (env : store) (enc : encoding) (bs : bytes) : res drawing :=
  match after_dxb_line enc bs with
  | Some r => DxbModel.load_dxb env r
  | None =>
      let? rd := open_reader enc bs in
      load (feed_as_utf8 rd) env (feed_of rd)
  end.

(** src/drawing.rs:190-208 [save_internal], as text ([save]) and as binary ([save_binary], 166-171). *)
Definition save_text (d : drawing) : res bytes :=
  let? ps := code_pairs d in
  Ok (write_text (version_leb (version_in d) R2004) ps).
Definition save_binary (d : drawing) : res bytes :=
  let? ps := code_pairs d in
  Ok (write_binary (version_leb R13 (version_in d)) ps).

(** Specification vocabulary for the header: the fields, the versions that store them, and what surviving means. *)
From Verif Require Import Base F64Model CodePairModel VersionModel DateModel SpecModel SpecSpec HeaderModel.
Open Scope Z_scope.

(** The values of a header field. Instants are seconds since 1900; durations are below 2^53 seconds. *)
Inductive hkind : Type := HKind (k : kind) | HVersionK | HUuidK | HDateK | HDurationK
| HWhole16K. (* a double that is a 16-bit integer *)
Definition has_hkind (k : hkind) (x : fval) : Prop :=
  match k with
  | HKind k => has_kind k x
  | HVersionK => exists v, x = version_val v
  | HUuidK => exists u, x = FInt u /\ 0 <= u < 2 ^ 128
  | HDateK => exists s, x = FInt s /\ 0 <= s <= max_date - 3
  | HDurationK => exists n, x = FInt n /\ 0 <= n < 2 ^ 53
  | HWhole16K => exists z, x = FF64 (f64_of_Z z) /\ -32768 <= z <= 32767
  end.
Definition hfits (k : hkind) (code : Z) (x : fval) : Prop :=
  match k with HKind k => fits k code x | _ => True end.
(** Equal, except for the sign of a zero; an instant may come back one second late. *)
Definition hsame (k : hkind) (back item : fval) : Prop :=
  match k with
  | HDateK => exists r s, back = FInt r /\ item = FInt s /\ s <= r <= s + 1
  | _ => same back item
  end.

Record hfield : Type := mk_hfield {
  hf_name : string;
  hf_kind : hkind;
  hf_codes : list Z;
  hf_windows : list (option version * option version) (* the versions that store it; empty: no place in the file *) }.
Definition in_window (v : version) (w : option version * option version) : Prop :=
  (match fst w with Some m => version_index m <= version_index v | None => True end)%N /\
  (match snd w with Some m => version_index v <= version_index m | None => True end)%N.
Definition hstored (v : version) (f : hfield) : Prop := exists w, In w (hf_windows f) /\ in_window v w.

Definition h_typed (fs : list hfield) (h : store) : Prop :=
  forall f, In f fs -> has_hkind (hf_kind f) (h (hf_name f)) /\ Forall (fun c => hfits (hf_kind f) c (h (hf_name f))) (hf_codes f).

(** The header [st] is what should come back of [h]. *)
Definition hkept (hs : hspec) (fs : list hfield) (v : version) (env h st : store) (f : hfield) : Prop :=
  (hstored v f -> hsame (hf_kind f) (st (hf_name f)) (h (hf_name f))) /\
  (~ hstored v f -> st (hf_name f) = header_default hs env (hf_name f)).
(** A header of version [v], written and read back, has the same value in every field the version stores and the default in
    every other field, except for the fields [lost]. *)
Definition header_survives (hs : hspec) (fs : list hfield) (v : version) (lost : list string) : Prop :=
  forall env h rest, h_typed fs h -> h "version"%string = version_val v -> next_item rest ->
  exists ps st u, write_header hs h = Ok ps /\
    read_header hs (fun it => it) false env (map Ok ps ++ rest) = Ok (st, u, rest) /\
    forall f, In f fs -> ~ In (hf_name f) lost -> hkept hs fs v env h st f.
(** A field really is lost: some header (with values of the fields' types, and within the range of the codes if [fit]) comes back
    with another value, or cannot be written or read. *)
Definition header_loses (hs : hspec) (fs : list hfield) (v : version) (fit : bool) (s : string) : Prop :=
  exists env h, (forall f, In f fs -> has_hkind (hf_kind f) (h (hf_name f))) /\ (fit = true -> h_typed fs h) /\
    h "version"%string = version_val v /\
    ~ exists ps st u, write_header hs h = Ok ps /\
        read_header hs (fun it => it) false env (map Ok ps ++ [Ok (mk_pair 0 (VStr (str "ENDSEC")))]) =
          Ok (st, u, [Ok (mk_pair 0 (VStr (str "ENDSEC")))]) /\
        forall f, In f fs -> hf_name f = s -> hkept hs fs v env h st f.

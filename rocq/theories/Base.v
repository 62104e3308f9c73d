(** Basic vocabulary of the model: characters, strings, bytes, results. *)
From Coq Require Export Ascii String NArith ZArith Bool Lia List.
From Coq Require Export ZifyBool ZifyNat ZifyN.
Export ListNotations.
Open Scope list_scope.
Ltac Zify.zify_post_hook ::= Z.div_mod_to_equations.

Arguments N.add : simpl never.
Arguments N.sub : simpl never.
Arguments N.mul : simpl never.
Arguments N.div : simpl never.
Arguments N.modulo : simpl never.
Arguments N.eqb : simpl never.
Arguments N.leb : simpl never.
Arguments N.ltb : simpl never.
Arguments Z.add : simpl never.
Arguments Z.sub : simpl never.
Arguments Z.mul : simpl never.
Arguments Z.div : simpl never.
Arguments Z.modulo : simpl never.
Arguments Z.eqb : simpl never.
Arguments Z.leb : simpl never.
Arguments Z.ltb : simpl never.
Arguments Z.of_nat : simpl never.
Arguments N.of_nat : simpl never.

(** A Rust [char] is a number; a Rust [String] is a list of them. A byte is a number too. *)
Notation char := N (only parsing).
Notation rstring := (list N) (only parsing).
Notation bytes := (list N) (only parsing).

(** Unicode scalar values: what a Rust [char] can hold (std). *)
Definition is_scalar (c : char) : bool :=
  (c <? 0xD800)%N || ((0xE000 <=? c)%N && (c <? 0x110000)%N).
Definition is_byte (b : N) : bool := (b <? 256)%N.
Definition is_ascii (c : char) : bool := (c <? 128)%N.

(** String literals (ASCII only). *)
Definition str (s : string) : rstring := map N_of_ascii (list_ascii_of_string s).

(** src/dxf_error.rs:8-26 [DxfError]. The payload of [UnexpectedCodePair] is reduced to its code
    and offset, [ParseFloatError]/[ParseIntError] lose the std error, [IoError] and [ImageError]
    cannot arise from in-memory data. [Panic] stands for a Rust panic, [OutOfFuel] for exhausted recursion
    fuel of the model (never a behaviour of the code). *)
Inductive dxf_error : Type :=
| ParseFloatError (offset : N)
| ParseIntError (offset : N)
| ParseError (offset : N)
| UnexpectedCode (code : Z) (offset : N)
| UnexpectedCodePair (code : Z) (offset : N)
| UnexpectedByte (expected : N) (offset : N)
| UnexpectedEndOfInput
| UnexpectedEnumValue (offset : N)
| UnexpectedEmptySet
| ExpectedTableType (offset : N)
| WrongValueType (offset : N)
| InvalidBinaryFile
| MalformedString
| WrongItemType
| ImageError
| Panic
| OutOfFuel.

(** src/dxf_result.rs: [DxfResult]. *)
Inductive res (A : Type) : Type :=
| Ok (a : A)
| Err (e : dxf_error).
Arguments Ok {A} a.
Arguments Err {A} e.

(** The [?] operator. *)
Definition bind {A B} (r : res A) (f : A -> res B) : res B :=
  match r with Ok a => f a | Err e => Err e end.
Notation "'let?' x := r 'in' f" := (bind r (fun x => f))
  (at level 200, x pattern, r at level 100, f at level 200, right associativity).

(** String equality (Rust [==] on str). *)
Fixpoint seqb (a b : rstring) : bool :=
  match a, b with
  | [], [] => true
  | x :: a', y :: b' => (x =? y)%N && seqb a' b'
  | _, _ => false
  end.

Lemma seqb_eq : forall a b, seqb a b = true <-> a = b.
Proof.
  induction a as [|x a IH]; intros [|y b]; cbn; split; intros H; try congruence; auto.
  - apply andb_true_iff in H as [H1 H2]. apply N.eqb_eq in H1. apply IH in H2. congruence.
  - injection H as -> ->. rewrite N.eqb_refl. cbn. apply IH. reflexivity.
Qed.

Lemma seqb_refl : forall a, seqb a a = true.
Proof. intros a. apply seqb_eq. reflexivity. Qed.

Lemma seqb_neq : forall a b, seqb a b = false <-> a <> b.
Proof.
  intros a b. split; intros H.
  - intros E. apply seqb_eq in E. congruence.
  - destruct (seqb a b) eqn:E; auto. apply seqb_eq in E. contradiction.
Qed.

Lemma seqb_sym : forall a b, seqb a b = seqb b a.
Proof.
  intros a b. destruct (seqb a b) eqn:E.
  - apply seqb_eq in E. subst. symmetry. apply seqb_refl.
  - symmetry. apply seqb_neq. apply seqb_neq in E. congruence.
Qed.

(** Integer ranges. *)
Definition is_i16 (z : Z) : bool := (-32768 <=? z)%Z && (z <=? 32767)%Z.
Definition is_i32 (z : Z) : bool := (-2147483648 <=? z)%Z && (z <=? 2147483647)%Z.
Definition is_i64 (z : Z) : bool := (-9223372036854775808 <=? z)%Z && (z <=? 9223372036854775807)%Z.
Definition is_u64 (n : N) : bool := (n <? 18446744073709551616)%N.

(** Two's complement reinterpretation used by Rust [as] casts to a signed type of [2^bits]. *)
Definition wrap_signed (modulus : Z) (z : Z) : Z :=
  let m := (z mod modulus)%Z in
  if (m <? modulus / 2)%Z then m else (m - modulus)%Z.
Definition as_i16 (z : Z) : Z := wrap_signed 65536 z.
Definition as_i32 (z : Z) : Z := wrap_signed 4294967296 z.
Definition as_u8 (z : Z) : N := Z.to_N (z mod 256)%Z.

Lemma as_i16_id : forall z, is_i16 z = true -> as_i16 z = z.
Proof. unfold is_i16, as_i16, wrap_signed. intros z H. destruct (_ <? _)%Z eqn:E; lia. Qed.
Lemma as_i16_range : forall z, is_i16 (as_i16 z) = true.
Proof. unfold is_i16, as_i16, wrap_signed. intros z. destruct (_ <? _)%Z eqn:E; lia. Qed.
Lemma as_i32_id : forall z, is_i32 z = true -> as_i32 z = z.
Proof. unfold is_i32, as_i32, wrap_signed. intros z H. destruct (_ <? _)%Z eqn:E; lia. Qed.

(** White space as seen by [str::trim] (Unicode White_Space, std). *)
Definition is_white (c : char) : bool :=
  ((9 <=? c) && (c <=? 13))%N || (c =? 32)%N || (c =? 0x85)%N || (c =? 0xA0)%N || (c =? 0x1680)%N
  || ((0x2000 <=? c) && (c <=? 0x200A))%N || (c =? 0x2028)%N || (c =? 0x2029)%N || (c =? 0x202F)%N
  || (c =? 0x205F)%N || (c =? 0x3000)%N.

(** [str::trim_start], [str::trim_end], [str::trim] (std). *)
Fixpoint trim_start (s : rstring) : rstring :=
  match s with
  | [] => []
  | c :: s' => if is_white c then trim_start s' else s
  end.
Definition trim_end (s : rstring) : rstring := rev (trim_start (rev s)).
Definition trim (s : rstring) : rstring := trim_end (trim_start s).

(** Right-aligning [{: >w}] (std::fmt). *)
Definition pad_left (w : nat) (s : rstring) : rstring := repeat 32%N (w - length s) ++ s.

Lemma trim_start_repeat : forall n s, trim_start (repeat 32%N n ++ s) = trim_start s.
Proof.
  induction n; intros s; [reflexivity|].
  cbn [repeat app trim_start]. change (is_white 32%N) with true. cbn iota. apply IHn.
Qed.

Lemma trim_start_nonwhite : forall c s, is_white c = false -> trim_start (c :: s) = c :: s.
Proof. intros c s H. cbn. rewrite H. reflexivity. Qed.

(** A string whose first and last characters are not white space is its own trim. *)
Lemma trim_id : forall s,
  Forall (fun c => is_white c = false) s -> trim s = s.
Proof.
  intros s H. unfold trim, trim_end.
  assert (A : forall t, Forall (fun c => is_white c = false) t -> trim_start t = t).
  { intros [|c t] Ht; auto. inversion Ht; subst. apply trim_start_nonwhite. assumption. }
  rewrite (A s H). rewrite A.
  - apply rev_involutive.
  - apply Forall_rev. assumption.
Qed.

Lemma trim_pad_left : forall w s,
  Forall (fun c => is_white c = false) s -> trim (pad_left w s) = s.
Proof.
  intros w s H. unfold trim, pad_left. rewrite trim_start_repeat.
  apply trim_id in H. exact H.
Qed.

Definition all_white (s : rstring) : Prop := Forall (fun c => is_white c = true) s.

Lemma trim_start_white_app : forall a s, all_white a -> trim_start (a ++ s) = trim_start s.
Proof. induction 1; cbn; auto. rewrite H. assumption. Qed.

Lemma trim_start_all_white : forall a, all_white a -> trim_start a = [].
Proof. intros a H. rewrite <- (app_nil_r a). rewrite trim_start_white_app; auto. Qed.

Lemma trim_start_app_cons : forall s a,
  trim_start s <> [] -> trim_start (s ++ a) = trim_start s ++ a.
Proof.
  induction s as [|c s IH]; cbn; intros a H; [congruence|].
  destruct (is_white c); auto.
Qed.

Lemma trim_start_nil_white : forall s, trim_start s = [] -> all_white s.
Proof.
  induction s as [|c s IH]; cbn; intros H; [constructor|].
  destruct (is_white c) eqn:E; [|congruence]. constructor; auto. apply IH; assumption.
Qed.

(** Trimming ignores blanks on either side. *)
Lemma trim_surround : forall a s b, all_white a -> all_white b -> trim (a ++ s ++ b) = trim s.
Proof.
  intros a s b Ha Hb. unfold trim, trim_end.
  rewrite trim_start_white_app by assumption.
  destruct (trim_start s) eqn:E.
  - apply trim_start_nil_white in E.
    rewrite (trim_start_all_white (s ++ b)); [reflexivity|]. apply Forall_app. split; assumption.
  - rewrite trim_start_app_cons by congruence. rewrite E.
    rewrite rev_app_distr. rewrite trim_start_white_app; auto. apply Forall_rev. assumption.
Qed.

Lemma Forall_forallb : forall A (f : A -> bool) l,
  Forall (fun x => f x = true) l <-> forallb f l = true.
Proof. intros. rewrite Forall_forall, forallb_forall. reflexivity. Qed.

Lemma length_ind : forall (A : Type) (P : list A -> Prop),
  (forall l, (forall l', length l' < length l -> P l') -> P l) -> forall l, P l.
Proof.
  intros A P H l. remember (length l) as n. revert l Heqn.
  induction n as [n IH] using lt_wf_ind. intros l E. apply H. intros l' Hl.
  apply (IH (length l')); lia.
Qed.

(** Common ground: bytes, big-endian numbers, result type, Go string helpers.
    Nothing here is specific to one file of /repo; every definition says which
    Go construct it stands for. *)
From Coq Require Export String.
From Coq Require Export List NArith ZArith Lia Bool Arith.
From Coq Require Export Init.Byte.
From Coq Require Export ZifyBool ZifyNat ZifyN.
From Coq Require Strings.Byte.
Export ListNotations.
Open Scope list_scope.

Ltac Zify.zify_post_hook ::= Z.div_mod_to_equations.
(** lia without the hypotheses about quotients and powers (they only slow it down). *)
Ltac flia :=
  repeat match goal with
  | H : context [N.pow _ _] |- _ => clear H
  | H : context [N.div _ _] |- _ => clear H
  | H : context [N.modulo _ _] |- _ => clear H
  end; lia.
(** lia/nia with powers, quotients and remainders taken as opaque numbers. *)
Ltac abs_arith :=
  repeat match goal with
  | x := _ |- _ => clearbody x
  end;
  repeat match goal with
  | |- context [N.pow ?a ?b] => let x := fresh "pw" in set (x := N.pow a b) in *; clearbody x
  | H : context [N.pow ?a ?b] |- _ => let x := fresh "pw" in set (x := N.pow a b) in *; clearbody x
  end;
  repeat match goal with
  | |- context [N.div ?a ?b] => let x := fresh "dv" in set (x := N.div a b) in *; clearbody x
  | H : context [N.div ?a ?b] |- _ => let x := fresh "dv" in set (x := N.div a b) in *; clearbody x
  end;
  repeat match goal with
  | |- context [N.modulo ?a ?b] => let x := fresh "md" in set (x := N.modulo a b) in *; clearbody x
  | H : context [N.modulo ?a ?b] |- _ => let x := fresh "md" in set (x := N.modulo a b) in *; clearbody x
  end.
Ltac alia := abs_arith; lia.
Ltac ania := abs_arith; nia.
Global Arguments N.add : simpl never.
Global Arguments N.sub : simpl never.
Global Arguments N.mul : simpl never.
Global Arguments N.pow : simpl never.
Global Arguments N.div : simpl never.
Global Arguments N.modulo : simpl never.
Global Arguments Z.add : simpl never.
Global Arguments Z.sub : simpl never.
Global Arguments Z.mul : simpl never.
Global Arguments Z.pow : simpl never.
Global Arguments Z.div : simpl never.
Global Arguments Z.modulo : simpl never.
Global Arguments Nat.div : simpl never.
Global Arguments Nat.modulo : simpl never.

(** A Go [string], [[]byte] or [net.IP].  [nil] and an empty slice are both []. *)
Definition bytes := list byte.

(** Readable literals: the UTF-8 bytes of a Coq string literal. *)
Definition str (s : string) : bytes := list_byte_of_string s.

(** uint8 -> number and number -> uint8 (Go conversion [byte(n)], truncating). *)
Definition b2n (b : byte) : N := Byte.to_N b.
Definition n2b (n : N) : byte :=
  match Byte.of_N (n mod 256) with Some b => b | None => x00 end.

Definition byte_eqb (a b : byte) : bool := N.eqb (b2n a) (b2n b).
Fixpoint bytes_eqb (a b : bytes) : bool :=
  match a, b with
  | [], [] => true
  | x :: a', y :: b' => byte_eqb x y && bytes_eqb a' b'
  | _, _ => false
  end.

(** Equality of []string values (Go reflect.DeepEqual on two non-nil slices). *)
Fixpoint strs_eqb (a b : list bytes) : bool :=
  match a, b with
  | [], [] => true
  | x :: a', y :: b' => bytes_eqb x y && strs_eqb a' b'
  | _, _ => false
  end.

(** Number denoted by a big-endian byte string. *)
Fixpoint val (l : bytes) : N :=
  match l with
  | [] => 0
  | b :: r => b2n b * 2 ^ (8 * N.of_nat (length r)) + val r
  end%N.

(** Big-endian encoding of [v mod 2^(8n)] in n bytes. *)
Fixpoint be_enc (n : nat) (v : N) : bytes :=
  match n with
  | O => []
  | S k => n2b (v / 2 ^ (8 * N.of_nat k))%N :: be_enc k v
  end.

(** Errors returned by the code (db/errors.go:5-31 and others used). *)
Inductive error :=
| ErrUnsupportedFormat | ErrDatabaseError | ErrFileSize | ErrMetaData
| ErrIPFormat | ErrNoSupportLanguage | ErrNoSupportIPv4 | ErrNoSupportIPv6
| ErrDataNotExists | ErrInvalidCIDR | ErrCIDRConflict | ErrCheckFailed
| ErrJson                 (* encoding/json failure *)
| ErrOffset               (* awdb newOffsetError *)
| ErrInvalidDb            (* awdb newInvalidDatabaseError *)
| ErrOther (s : bytes).   (* errors.New *)

(** Outcome of a Go call: value, returned error, run-time panic, or (only for
    loops modelled with fuel) fuel exhausted. *)
Inductive res (A : Type) := Ok (a : A) | Err (e : error) | Panic | OutOfFuel.
Arguments Ok {A} a.
Arguments Err {A} e.
Arguments Panic {A}.
Arguments OutOfFuel {A}.

Definition bind {A B} (r : res A) (f : A -> res B) : res B :=
  match r with Ok a => f a | Err e => Err e | Panic => Panic | OutOfFuel => OutOfFuel end.
Notation "'let*' x ':=' e 'in' k" := (bind e (fun x => k))
  (at level 200, x name, e at level 100, k at level 200, only parsing).
Notation "'let*' ' p ':=' e 'in' k" := (bind e (fun x => match x with p => k end))
  (at level 200, p pattern, e at level 100, k at level 200, only parsing).

(** Index expression [l[i]] on a slice: panics when out of range. *)
Definition idx {A} (l : list A) (i : nat) : res A :=
  match nth_error l i with Some x => Ok x | None => Panic end.

(** Slice expression [l[lo:hi]]; capacity is taken to be the length. *)
Definition slice {A} (l : list A) (lo hi : nat) : res (list A) :=
  if (lo <=? hi) && (hi <=? length l) then Ok (firstn (hi - lo) (skipn lo l)) else Panic.

(** Assignment [l[i] = x] (no effect when out of range; callers check). *)
Fixpoint upd {A} (l : list A) (i : nat) (x : A) : list A :=
  match l, i with
  | [], _ => []
  | _ :: r, O => x :: r
  | a :: r, S k => a :: upd r k x
  end.

(** strings.Split(s, sep) for a one-byte separator: never returns []. *)
Fixpoint split (sep : byte) (s : bytes) : list bytes :=
  match s with
  | [] => [[]]
  | c :: r =>
      if byte_eqb c sep then [] :: split sep r
      else match split sep r with h :: t => (c :: h) :: t | [] => [[c]] end
  end.

(** strings.Join(l, sep) for a one-byte separator. *)
Fixpoint join (sep : byte) (l : list bytes) : bytes :=
  match l with
  | [] => []
  | [x] => x
  | x :: r => x ++ sep :: join sep r
  end.

(** db/field/strings.go:3-10 InArray *)
Definition in_array (s : bytes) (l : list bytes) : bool := existsb (bytes_eqb s) l.

(** db/field/strings.go:12-19 Offset (None for -1): index of the first match. *)
Fixpoint offset_of (s : bytes) (l : list bytes) : option nat :=
  match l with
  | [] => None
  | x :: r => if bytes_eqb x s then Some O
              else match offset_of s r with Some i => Some (S i) | None => None end
  end.

(** A Go map[string]V as an association list; lookup returns the first entry,
    so inserting is consing. *)
Fixpoint assoc {V} (k : bytes) (m : list (bytes * V)) : option V :=
  match m with
  | [] => None
  | (k', v) :: r => if bytes_eqb k' k then Some v else assoc k r
  end.

(* ------------------------------------------------------------------ *)
(** * Lemmas *)

Lemma b2n_lt b : (b2n b < 256)%N.
Proof. unfold b2n. pose proof (Byte.to_N_bounded b). lia. Qed.

Lemma b2n_n2b n : b2n (n2b n) = (n mod 256)%N.
Proof.
  unfold b2n, n2b. destruct (Byte.of_N (n mod 256)) eqn:E.
  - apply Byte.to_of_N in E. exact E.
  - apply Byte.of_N_None_iff in E. lia.
Qed.

Lemma n2b_b2n b : n2b (b2n b) = b.
Proof.
  unfold n2b. rewrite N.mod_small by apply b2n_lt.
  unfold b2n. rewrite Byte.of_to_N. reflexivity.
Qed.

Lemma b2n_inj a b : b2n a = b2n b -> a = b.
Proof. intros H. rewrite <- (n2b_b2n a), <- (n2b_b2n b), H. reflexivity. Qed.

Lemma byte_eqb_spec a b : reflect (a = b) (byte_eqb a b).
Proof.
  unfold byte_eqb. destruct (N.eqb_spec (b2n a) (b2n b)); constructor.
  - apply b2n_inj; assumption.
  - congruence.
Qed.

Lemma bytes_eqb_spec a b : reflect (a = b) (bytes_eqb a b).
Proof.
  revert b; induction a as [|x a IH]; intros [|y b]; simpl; try (constructor; congruence).
  destruct (byte_eqb_spec x y); simpl; [|constructor; congruence].
  destruct (IH b); constructor; congruence.
Qed.

Lemma strs_eqb_spec a b : reflect (a = b) (strs_eqb a b).
Proof.
  revert b; induction a as [|x a IH]; intros [|y b]; simpl; try (constructor; congruence).
  destruct (bytes_eqb_spec x y); simpl; [|constructor; congruence].
  destruct (IH b); constructor; congruence.
Qed.

Lemma bytes_eqb_refl a : bytes_eqb a a = true.
Proof. destruct (bytes_eqb_spec a a); congruence. Qed.

Lemma byte_eqb_refl a : byte_eqb a a = true.
Proof. destruct (byte_eqb_spec a a); congruence. Qed.

Lemma strs_eqb_refl a : strs_eqb a a = true.
Proof. destruct (strs_eqb_spec a a); congruence. Qed.

Lemma pow8_S n : (2 ^ (8 * N.of_nat (S n)) = 256 * 2 ^ (8 * N.of_nat n))%N.
Proof.
  replace (8 * N.of_nat (S n))%N with (8 + 8 * N.of_nat n)%N by lia.
  rewrite N.pow_add_r. reflexivity.
Qed.

Lemma pow_pos n : (0 < 2 ^ n)%N.
Proof. apply N.neq_0_lt_0, N.pow_nonzero. discriminate. Qed.

Lemma val_bound l : (val l < 2 ^ (8 * N.of_nat (length l)))%N.
Proof.
  induction l as [|b r IH]; [reflexivity|].
  cbn [length val]. rewrite pow8_S.
  pose proof (b2n_lt b). pose proof (pow_pos (8 * N.of_nat (length r))). nia.
Qed.

Lemma val_app a b :
  val (a ++ b) = (val a * 2 ^ (8 * N.of_nat (length b)) + val b)%N.
Proof.
  induction a as [|x a IH]; [reflexivity|].
  cbn [app val]. rewrite IH, app_length.
  replace (8 * N.of_nat (length a + length b))%N
    with (8 * N.of_nat (length a) + 8 * N.of_nat (length b))%N by lia.
  rewrite N.pow_add_r. ring.
Qed.

Lemma val_inj a b : length a = length b -> val a = val b -> a = b.
Proof.
  revert b; induction a as [|x a IH]; intros [|y b] Hl Hv; try discriminate; [reflexivity|].
  injection Hl as Hl. cbn [val] in Hv. rewrite Hl in Hv.
  pose proof (val_bound a) as Ha. rewrite Hl in Ha. pose proof (val_bound b) as Hb.
  set (P := (2 ^ (8 * N.of_nat (length b)))%N) in *.
  assert (b2n x = b2n y) as E by nia.
  rewrite E in Hv. apply b2n_inj in E. subst y. f_equal. apply IH; [assumption|lia].
Qed.

Lemma be_enc_length n v : length (be_enc n v) = n.
Proof. induction n as [|n IH]; [reflexivity|]. cbn [be_enc length]. congruence. Qed.

Lemma val_be_enc n v : val (be_enc n v) = (v mod 2 ^ (8 * N.of_nat n))%N.
Proof.
  induction n as [|n IH].
  - cbn [be_enc val]. rewrite N.mod_1_r. reflexivity.
  - cbn [be_enc val]. rewrite be_enc_length, IH, b2n_n2b, pow8_S.
    set (P := (2 ^ (8 * N.of_nat n))%N).
    assert (P <> 0)%N by (unfold P; apply N.pow_nonzero; discriminate).
    rewrite (N.mul_comm 256 P), N.mod_mul_r by (assumption || discriminate). lia.
Qed.

Lemma be_enc_val l : be_enc (length l) (val l) = l.
Proof.
  apply val_inj; [apply be_enc_length|].
  rewrite val_be_enc. apply N.mod_small, val_bound.
Qed.

Lemma be_enc_mod n v : be_enc n (v mod 2 ^ (8 * N.of_nat n)) = be_enc n v.
Proof.
  apply val_inj; [rewrite !be_enc_length; reflexivity|].
  rewrite !val_be_enc. apply N.mod_mod, N.pow_nonzero. discriminate.
Qed.

Lemma upd_length {A} (l : list A) i x : length (upd l i x) = length l.
Proof. revert i; induction l as [|a l IH]; intros [|i]; simpl; congruence. Qed.

Lemma nth_error_upd {A} (l : list A) i x j :
  nth_error (upd l i x) j =
  if (i =? j) && (i <? length l) then Some x else nth_error l j.
Proof.
  revert i j; induction l as [|a l IH]; intros [|i] [|j]; simpl; try reflexivity.
  - destruct (_ =? _); reflexivity.
  - rewrite IH. reflexivity.
Qed.

Lemma upd_same {A} (l : list A) i x : nth_error l i = Some x -> upd l i x = l.
Proof.
  revert i; induction l as [|a l IH]; intros [|i] H; simpl in *; try discriminate.
  - congruence.
  - f_equal. apply IH. assumption.
Qed.

Lemma split_nonnil sep s : split sep s <> [].
Proof.
  induction s as [|c r IH]; simpl; [discriminate|].
  destruct (byte_eqb c sep); [discriminate|]. destruct (split sep r); [congruence|discriminate].
Qed.

(** No occurrence of a separator byte. *)
Definition no_byte (c : byte) (s : bytes) : Prop := ~ In c s.

Lemma split_single sep s : no_byte sep s -> split sep s = [s].
Proof.
  induction s as [|c r IH]; simpl; intros H; [reflexivity|].
  destruct (byte_eqb_spec c sep) as [->|Hne].
  - exfalso. apply H. left. reflexivity.
  - rewrite IH; [reflexivity|]. intros Hin. apply H. right. assumption.
Qed.

Lemma split_app sep s r :
  no_byte sep s -> split sep (s ++ sep :: r) = s :: split sep r.
Proof.
  induction s as [|c s IH]; simpl; intros H.
  - rewrite byte_eqb_refl. reflexivity.
  - destruct (byte_eqb_spec c sep) as [->|Hne].
    + exfalso. apply H. left. reflexivity.
    + rewrite IH; [reflexivity|]. intros Hin. apply H. right. assumption.
Qed.

Lemma split_join sep l :
  l <> [] -> Forall (no_byte sep) l -> split sep (join sep l) = l.
Proof.
  induction l as [|x l IH]; intros Hn Hf; [congruence|].
  inversion Hf; subst. destruct l as [|y l].
  - simpl. apply split_single. assumption.
  - change (join sep (x :: y :: l)) with (x ++ sep :: join sep (y :: l)).
    rewrite split_app by assumption. f_equal. apply IH; [discriminate|assumption].
Qed.

Lemma join_split sep s : join sep (split sep s) = s.
Proof.
  induction s as [|c r IH]; [reflexivity|].
  simpl. destruct (byte_eqb_spec c sep) as [->|Hne].
  - destruct (split sep r) eqn:E; [exfalso; eapply split_nonnil; eassumption|].
    change (sep :: join sep (b :: l) = sep :: r). congruence.
  - destruct (split sep r) as [|h t] eqn:E; [exfalso; eapply split_nonnil; eassumption|].
    destruct t; simpl in *; congruence.
Qed.

Lemma split_no_byte sep s : Forall (no_byte sep) (split sep s).
Proof.
  induction s as [|c r IH]; simpl.
  - constructor; [intros []|constructor].
  - destruct (byte_eqb_spec c sep) as [->|Hne].
    + constructor; [intros []|assumption].
    + destruct (split sep r) as [|h t] eqn:E; inversion IH; subst.
      * constructor; [|constructor]. intros [H|[]]. congruence.
      * constructor; [|assumption]. intros [H|H]; [congruence|]. contradiction.
Qed.

Lemma join_inj sep a b :
  a <> [] -> b <> [] -> Forall (no_byte sep) a -> Forall (no_byte sep) b ->
  join sep a = join sep b -> a = b.
Proof.
  intros Ha Hb Fa Fb H.
  rewrite <- (split_join sep a), <- (split_join sep b), H by assumption. reflexivity.
Qed.

Lemma in_array_iff s l : in_array s l = true <-> In s l.
Proof.
  unfold in_array. rewrite existsb_exists. split.
  - intros [x [Hx E]]. destruct (bytes_eqb_spec s x); congruence.
  - intros H. exists s. split; [assumption|apply bytes_eqb_refl].
Qed.

Lemma offset_of_Some s l i :
  offset_of s l = Some i ->
  nth_error l i = Some s /\ forall j, j < i -> nth_error l j <> Some s.
Proof.
  revert i; induction l as [|x l IH]; simpl; intros i H; [discriminate|].
  destruct (bytes_eqb_spec x s) as [->|Hne].
  - injection H as <-. split; [reflexivity|]. lia.
  - destruct (offset_of s l) as [k|] eqn:E; [|discriminate]. injection H as <-.
    destruct (IH k eq_refl) as [H1 H2]. split; [assumption|].
    intros [|j] Hj; simpl; [congruence|]. apply H2. lia.
Qed.

Lemma offset_of_None s l : offset_of s l = None -> ~ In s l.
Proof.
  induction l as [|x l IH]; simpl; intros H; [tauto|].
  destruct (bytes_eqb_spec x s) as [->|Hne]; [discriminate|].
  destruct (offset_of s l); [discriminate|]. intros [E|E]; [congruence|]. apply IH; auto.
Qed.

Lemma offset_of_In s l : In s l -> exists i, offset_of s l = Some i.
Proof.
  intros H. destruct (offset_of s l) as [i|] eqn:E; [eauto|].
  exfalso. eapply offset_of_None; eassumption.
Qed.

Lemma offset_of_lt s l i : offset_of s l = Some i -> i < length l.
Proof.
  intros H. apply offset_of_Some in H as [H _]. apply nth_error_Some. congruence.
Qed.

Lemma slice_Ok {A} (l : list A) lo hi r :
  slice l lo hi = Ok r -> lo <= hi <= length l /\ r = firstn (hi - lo) (skipn lo l).
Proof.
  unfold slice. destruct (_ && _) eqn:E; [|discriminate]. intros H. injection H as <-.
  split; [lia|reflexivity].
Qed.

Lemma slice_app {A} (a b c : list A) lo hi :
  lo = length a -> hi = (lo + length b)%nat -> slice (a ++ b ++ c) lo hi = Ok b.
Proof.
  intros -> ->. unfold slice.
  rewrite !app_length.
  replace ((length a <=? length a + length b) &&
           (length a + length b <=? length a + (length b + length c))) with true by lia.
  f_equal. rewrite skipn_app, skipn_all, Nat.sub_diag. cbn [skipn app].
  replace (length a + length b - length a)%nat with (length b + 0)%nat by lia.
  rewrite firstn_app_2. cbn. apply app_nil_r.
Qed.

Lemma Forall2_length {A B} {R : A -> B -> Prop} {l m} : Forall2 R l m -> length l = length m.
Proof. induction 1; cbn; congruence. Qed.

(** Specification vocabulary for awdb data (C37-C39): the format, without reference
    to the decoder's functions.  The data types of decoded values come from the model. *)
From Verif Require Export Base.
From Verif Require Import AwDecode.   (* only for the type value *)
Open Scope N_scope.

(** The bytes bs stand in the buffer at offset o. *)
Definition holds (buf : bytes) (o : N) (bs : bytes) : Prop :=
  firstn (length bs) (skipn (N.to_nat o) buf) = bs.
Definition len (bs : bytes) : N := N.of_nat (length bs).

(** The control bytes of a value of type t and size n: the type in the upper three bits
    of the first byte, or 0 there and t - 7 in the second byte; the size in the lower
    five bits, or 29, 30, 31 there and the excess over 29, 285, 65821 in one, two or
    three more bytes. *)
Definition size_code (n : N) : N * bytes :=
  if n <? 29 then (n, [])
  else if n <? 285 then (29, be_enc 1 (n - 29))
  else if n <? 65821 then (30, be_enc 2 (n - 285))
  else (31, be_enc 3 (n - 65821)).
Definition header (t n : N) : bytes :=
  let '(s, more) := size_code n in
  if t <? 8 then n2b (t * 32 + s) :: more else n2b s :: n2b (t - 7) :: more.
Definition size_limit : N := 65821 + 2 ^ 24.

(** The encodings of a pointer to p: 11, 19, 27 or 32 bits, the first three with
    the upper bits in the control byte and an excess over 0, 2048, 526336. *)
Inductive pointer_to (p : N) : bytes -> Prop :=
| pt1 : p < 2 ^ 11 -> pointer_to p [n2b (32 + p / 256); n2b p]
| pt2 q : p = q + 2048 -> q < 2 ^ 19 -> pointer_to p (n2b (40 + q / 2 ^ 16) :: be_enc 2 q)
| pt3 q : p = q + 526336 -> q < 2 ^ 27 -> pointer_to p (n2b (48 + q / 2 ^ 24) :: be_enc 3 q)
| pt4 : p < 2 ^ 32 -> pointer_to p (n2b 56 :: be_enc 4 p).

(** A map key: a string, or pointers to one. *)
Inductive key_at (buf : bytes) : N -> bytes -> N -> Prop :=
| ka_str o s : len s < size_limit -> holds buf o (header 2 (len s) ++ s) ->
    key_at buf o s (o + len (header 2 (len s) ++ s))
| ka_ptr o p bs s o2 : pointer_to p bs -> holds buf o bs -> key_at buf p s o2 ->
    key_at buf o s (o + len bs).

(** A number in at most four bytes, two's complement if it has all four. *)
Definition signed32 (bs : bytes) : Z :=
  if (length bs =? 4)%nat && (2 ^ 31 <=? val bs) then (Z.of_N (val bs) - 2 ^ 32)%Z else Z.of_N (val bs).

(** [enc_at d buf o v o']: buf holds at o an encoding of v that ends before o', with at
    most d levels of maps, arrays and pointers (leaves included). *)
Inductive enc_at (buf : bytes) : nat -> N -> value -> N -> Prop :=
| ea_str d o s : len s < size_limit -> holds buf o (header 2 (len s) ++ s) ->
    enc_at buf (S d) o (VStr s) (o + len (header 2 (len s) ++ s))
| ea_bytes d o s : len s < size_limit -> holds buf o (header 4 (len s) ++ s) ->
    enc_at buf (S d) o (VBytes s) (o + len (header 4 (len s) ++ s))
| ea_uint t d o (bs : bytes) : (t = 5 /\ (length bs <= 2)%nat) \/ (t = 6 /\ (length bs <= 4)%nat) \/ (t = 9 /\ (length bs <= 8)%nat) ->
    holds buf o (header t (len bs) ++ bs) ->
    enc_at buf (S d) o (VUint (val bs)) (o + len (header t (len bs) ++ bs))
| ea_big d o (bs : bytes) : (length bs <= 16)%nat -> holds buf o (header 10 (len bs) ++ bs) ->
    enc_at buf (S d) o (VBig (val bs)) (o + len (header 10 (len bs) ++ bs))
| ea_int d o (bs : bytes) : (length bs <= 4)%nat -> holds buf o (header 8 (len bs) ++ bs) ->
    enc_at buf (S d) o (VInt (signed32 bs)) (o + len (header 8 (len bs) ++ bs))
| ea_f64 d o (bs : bytes) : length bs = 8%nat -> holds buf o (header 3 8 ++ bs) ->
    enc_at buf (S d) o (VF64 (val bs)) (o + len (header 3 8 ++ bs))
| ea_f32 d o (bs : bytes) : length bs = 4%nat -> holds buf o (header 15 4 ++ bs) ->
    enc_at buf (S d) o (VF32 (val bs)) (o + len (header 15 4 ++ bs))
| ea_bool d o (b : bool) : holds buf o (header 14 (if b then 1 else 0)) ->
    enc_at buf (S d) o (VBool b) (o + len (header 14 (if b then 1 else 0)))
| ea_map d o m o2 : N.of_nat (length m) < size_limit -> holds buf o (header 7 (N.of_nat (length m))) ->
    entries_at buf d (o + len (header 7 (N.of_nat (length m)))) m o2 ->
    enc_at buf (S d) o (VMap m) o2
| ea_list d o l o2 : N.of_nat (length l) < size_limit -> holds buf o (header 11 (N.of_nat (length l))) ->
    items_at buf d (o + len (header 11 (N.of_nat (length l)))) l o2 ->
    enc_at buf (S d) o (VList l) o2
| ea_ptr d o p bs v o2 : pointer_to p bs -> holds buf o bs -> enc_at buf d p v o2 ->
    enc_at buf (S d) o v (o + len bs)
with entries_at (buf : bytes) : nat -> N -> list (bytes * value) -> N -> Prop :=
| en_nil d o : entries_at buf d o [] o
| en_cons d o k o1 v o2 m o3 : key_at buf o k o1 -> enc_at buf d o1 v o2 -> entries_at buf d o2 m o3 ->
    entries_at buf d o ((k, v) :: m) o3
with items_at (buf : bytes) : nat -> N -> list value -> N -> Prop :=
| it_nil d o : items_at buf d o [] o
| it_cons d o v o1 l o2 : enc_at buf d o v o1 -> items_at buf d o1 l o2 -> items_at buf d o (v :: l) o2.

(** A plain encoder, without pointers. *)
Fixpoint encode (v : value) : bytes :=
  match v with
  | VBool b => header 14 (if b then 1 else 0)
  | VStr s => header 2 (len s) ++ s
  | VBytes s => header 4 (len s) ++ s
  | VF32 n => header 15 4 ++ be_enc 4 n
  | VF64 n => header 3 8 ++ be_enc 8 n
  | VInt z => header 8 4 ++ be_enc 4 (Z.to_N (z mod 2 ^ 32)%Z)
  | VUint n => header 9 8 ++ be_enc 8 n
  | VBig n => header 10 16 ++ be_enc 16 n
  | VMap m => header 7 (N.of_nat (length m)) ++ flat_map (fun kv => header 2 (len (fst kv)) ++ fst kv ++ encode (snd kv)) m
  | VList l => header 11 (N.of_nat (length l)) ++ flat_map encode l
  end.
Fixpoint depth (v : value) : nat :=
  match v with
  | VMap m => S (fold_right (fun kv n => Nat.max (depth (snd kv)) n) O m)
  | VList l => S (fold_right (fun x n => Nat.max (depth x) n) O l)
  | _ => 1
  end.
(** Values that can be written: numbers in range, lengths below the format's limit. *)
Fixpoint encodable (v : value) : Prop :=
  match v with
  | VBool _ => True
  | VStr s | VBytes s => len s < size_limit
  | VF32 n => n < 2 ^ 32
  | VF64 n => n < 2 ^ 64
  | VInt z => (- 2 ^ 31 <= z < 2 ^ 31)%Z
  | VUint n => n < 2 ^ 64
  | VBig n => n < 2 ^ 128
  | VMap m => N.of_nat (length m) < size_limit /\
              fold_right (fun kv P => (len (fst kv) < size_limit /\ encodable (snd kv)) /\ P) True m
  | VList l => N.of_nat (length l) < size_limit /\ fold_right (fun x P => encodable x /\ P) True l
  end.

(** [points buf o p]: at o the buffer holds a pointer to p. *)
Definition points (buf : bytes) (o p : N) : Prop := exists bs, pointer_to p bs /\ holds buf o bs.

(** What a control byte of pointer type looks like to a reader that does not check it:
    the type 1 may also be spelled as an extended type, and the low five bits may say
    29, 30 or 31, in which case a size of one, two or three bytes follows. *)
Definition ctrl_lead (lead : bytes) (s : N) : Prop :=
  (exists c, lead = [c] /\ b2n c = 32 + s /\ s < 32) \/
  (exists c, lead = [c; xfa] /\ b2n c = s /\ s < 32).
Definition ctrl_size (s : N) (more : bytes) (size : N) : Prop :=
  (s < 29 /\ more = [] /\ size = s) \/
  (s = 29 /\ length more = 1%nat /\ size = 29 + val more) \/
  (s = 30 /\ length more = 2%nat /\ size = 285 + val more) \/
  (s = 31 /\ length more = 3%nat /\ size = 65821 + val more).
(** The number of bytes of the pointer and its value follow from the size. *)
Definition loose_pointer (size p : N) (bs : bytes) : Prop :=
  len bs = (size / 8) mod 4 + 1 /\
  p = match length bs with
      | 1%nat => size mod 8 * 2 ^ 8 + val bs
      | 2%nat => size mod 8 * 2 ^ 16 + val bs + 2048
      | 3%nat => size mod 8 * 2 ^ 24 + val bs + 526336
      | _ => val bs
      end.
Definition leads (buf : bytes) (o p : N) : Prop :=
  exists lead s (more : bytes) size bs, ctrl_lead lead s /\ ctrl_size s more size /\ loose_pointer size p bs /\
    holds buf o (lead ++ more ++ bs).

(** One or more steps. *)
Inductive plus {A} (R : A -> A -> Prop) : A -> A -> Prop :=
| plus_one x y : R x y -> plus R x y
| plus_step x y z : R x y -> plus R y z -> plus R x z.

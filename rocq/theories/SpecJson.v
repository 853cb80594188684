(** Specification of JSON texts (RFC 8259), independent of the model's reader: which texts
    stand for a value.  Used for the metadata of ipdb files written by any program.  Lone
    surrogates and bytes that are not UTF-8 are left out (no standard meaning). *)
From Verif Require Import Base SpecForeign Json.
Open Scope N_scope.

(** A hexadecimal digit, either case, and its value. *)
Definition hex_digits : list (byte * N) :=
  [(x30,0);(x31,1);(x32,2);(x33,3);(x34,4);(x35,5);(x36,6);(x37,7);(x38,8);(x39,9);
   (x61,10);(x62,11);(x63,12);(x64,13);(x65,14);(x66,15);(x41,10);(x42,11);(x43,12);(x44,13);(x45,14);(x46,15)].
(** Backslash, u and four hexadecimal digits *)
Definition unit_text (n : N) (t : bytes) : Prop :=
  exists a b c d x y z w, t = [x5c; x75; a; b; c; d] /\ In (a, x) hex_digits /\ In (b, y) hex_digits /\
    In (c, z) hex_digits /\ In (d, w) hex_digits /\ n = 4096 * x + 256 * y + 16 * z + w.
(** The short escapes of the quote, the two slashes and b f n r t *)
Definition short_escapes : list (byte * N) :=
  [(x22,0x22);(x5c,0x5c);(x2f,0x2f);(x62,8);(x66,12);(x6e,10);(x72,13);(x74,9)].
(** One character of a string. *)
Inductive char_text : N -> bytes -> Prop :=
| ct_raw c : scalar c -> 0x20 <= c -> c <> 0x22 -> c <> 0x5c -> char_text c (utf8_enc c)
| ct_short e c : In (e, c) short_escapes -> char_text c [x5c; e]
| ct_unit c t : scalar c -> unit_text c t -> char_text c t
| ct_pair c hi lo t u : 0x10000 <= c < 0x110000 -> hi = 0xd800 + (c - 0x10000) / 1024 -> lo = 0xdc00 + (c - 0x10000) mod 1024 ->
    unit_text hi t -> unit_text lo u -> char_text c (t ++ u).
(** A string with its quotes: the characters and their UTF-8 bytes. *)
Inductive chars_text : list N -> bytes -> Prop :=
| cs_nil : chars_text [] []
| cs_cons c cs t u : char_text c t -> chars_text cs u -> chars_text (c :: cs) (t ++ u).
Definition str_text (s t : bytes) : Prop := exists cs u, s = flat_map utf8_enc cs /\ chars_text cs u /\ t = x22 :: u ++ [x22].

Definition white (s : bytes) : Prop := Forall (fun b => In b [x20; x09; x0a; x0d]) s.
Definition dec_digit (b : byte) : Prop := 0x30 <= b2n b <= 0x39.
Definition digits_text (t : bytes) : Prop := t <> [] /\ Forall dec_digit t.
(** [-] int [frac] [exp] *)
Definition num_text (t : bytes) : Prop :=
  exists sg i f e, t = sg ++ i ++ f ++ e /\ (sg = [] \/ sg = [x2d]) /\
    (i = [x30] \/ (digits_text i /\ forall r, i <> x30 :: r)) /\
    (f = [] \/ exists d, f = x2e :: d /\ digits_text d) /\
    (e = [] \/ exists m s d, e = m :: s ++ d /\ In m [x65; x45] /\ In s [[]; [x2b]; [x2d]] /\ digits_text d).

(** The texts of a value. *)
Inductive writes : json -> bytes -> Prop :=
| w_null : writes JNull (str "null")
| w_true : writes (JBool true) (str "true")
| w_false : writes (JBool false) (str "false")
| w_num t : num_text t -> writes (JNum t) t
| w_str s t : str_text s t -> writes (JStr s) t
| w_arr0 w : white w -> writes (JArr []) (x5b :: w ++ [x5d])
| w_arr l t : elems_text l t -> writes (JArr l) (x5b :: t ++ [x5d])
| w_obj0 w : white w -> writes (JObj []) (x7b :: w ++ [x7d])
| w_obj l t : members_text l t -> writes (JObj l) (x7b :: t ++ [x7d])
with elems_text : list json -> bytes -> Prop :=
| e_one j t w1 w2 : white w1 -> white w2 -> writes j t -> elems_text [j] (w1 ++ t ++ w2)
| e_more j t w1 w2 l u : white w1 -> white w2 -> writes j t -> elems_text l u -> elems_text (j :: l) (w1 ++ t ++ w2 ++ x2c :: u)
with members_text : list (bytes * json) -> bytes -> Prop :=
| m_one k kt j t w1 w2 w3 w4 : white w1 -> white w2 -> white w3 -> white w4 -> str_text k kt -> writes j t ->
    members_text [(k, j)] (w1 ++ kt ++ w2 ++ x3a :: w3 ++ t ++ w4)
| m_more k kt j t w1 w2 w3 w4 l u : white w1 -> white w2 -> white w3 -> white w4 -> str_text k kt -> writes j t -> members_text l u ->
    members_text ((k, j) :: l) (w1 ++ kt ++ w2 ++ x3a :: w3 ++ t ++ w4 ++ x2c :: u).
Scheme writes_ind' := Induction for writes Sort Prop
with elems_ind' := Induction for elems_text Sort Prop
with members_ind' := Induction for members_text Sort Prop.
Combined Scheme json_text_ind from writes_ind', elems_ind', members_ind'.

(** How deep arrays and objects are nested in a value. *)
Fixpoint nested (j : json) : nat :=
  match j with
  | JArr l => S (fold_right (fun x m => Nat.max (nested x) m) O l)
  | JObj l => S (fold_right (fun kv m => Nat.max (nested (snd kv)) m) O l)
  | _ => O
  end.
